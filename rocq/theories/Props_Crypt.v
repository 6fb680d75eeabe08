(** C39-C46: the encrypted file format. *)
From Verif Require Import Proof_Crypt7.
From Coq Require Import Lia.
From stdpp Require Import options.
#[local] Open Scope nat_scope.

(** ** Concrete values for the examples *)

Definition B (s : string) : bytes := str_bytes s.
Definition ex_pass : bytes := B "correct horse".
Definition ex_salt : bytes := replicate 32 (Zbyte 115).
Definition ex_iv : bytes := map (λ n, Zbyte (Z.of_nat n + 60)) (seq 0 40).
Definition ex_pt : bytes := B "{""log"":[]}".
Definition ex_key : bytes := key_of toy ex_pass ex_salt.
Definition ex_single : Params := single_params ex_key ex_salt [].
Definition get {A} (d : A) (x : outcome A) : A := match x with Ok a => a | _ => d end.

Definition ex_salt2 : bytes := replicate 32 (Zbyte 116).
Definition ex_pass2 : bytes := B "staple".
Definition ex_key2 : bytes := key_of toy ex_pass2 ex_salt2.
Definition ex_master : bytes := replicate 80 (Zbyte 77).
Definition ex_multi : Params := {|
  p_version := 1; NUsers := 2; User := 1; Keys := [[]; ex_key2]; Salts := [ex_salt; ex_salt2];
  Users := [sha256 toy (B "alice"); sha256 toy (B "bob")]; IVs := [ex_iv; reverse ex_iv];
  MKeys := [(get ([], []) (EncryptMasterKey toy 1 ex_key ex_master (Some ex_iv))).1;
            (get ([], []) (EncryptMasterKey toy 1 ex_key2 ex_master (Some (reverse ex_iv)))).1];
  IVM := Some ex_iv; Master := Some ex_master |}.

Lemma ex_multi_ok : multi_ok ex_multi.
Proof. repeat split; [vm_compute; done|simpl; eauto|simpl; eauto]. Qed.
Lemma ex_alice : enrolled toy ex_multi 0 (B "alice") ex_key.
Proof.
  split; [done|]. split; [lia|]. exists ex_master, ex_iv. eexists. split; [done|]. split; [done|]. split; [reflexivity|].
  vm_compute. reflexivity.
Qed.
Lemma ex_bob : enrolled toy ex_multi 1 (B "bob") ex_key2.
Proof.
  split; [done|]. split; [intros [|j] ?; [by vm_compute|lia]|]. exists ex_master, (reverse ex_iv). eexists.
  split; [done|]. split; [done|]. split; [reflexivity|]. vm_compute. reflexivity.
Qed.

(** ** C39: single-user files open again *)

Theorem C39_single_round_trip_partial P p riv pt key salt sp : prims_ok P → validate v1 p = Ok tt → NUsers p = 0%Z →
  Keys p !! 0 = Some key → key ≠ [] → Salts p !! 0 = Some salt → length riv = 40 →
  ∃ f, Encrypt P 1 p (Some riv) pt = Ok f ∧
    (∀ user pass, Decrypt P user pass (Some key) salt (mk_slice f sp) = Ok (1%Z, single_params key salt riv, pt)) ∧
    (∀ user pass key' salt', pass ≠ [] → key = key_of P pass salt → (key' = None ∨ salt' ≠ salt) →
       Decrypt P user pass key' salt' (mk_slice f sp) = Ok (1%Z, single_params key salt riv, pt)).
Proof. apply single_round_trip. Qed.
Print Assumptions C39_single_round_trip_partial.

(** The passphrase the file was made with may not be empty: such a file is
    written without complaint and its passphrase is then refused. *)
Theorem C39_empty_passphrase_refuted P salt riv pt user sp : prims_ok P → length salt = 32 → length riv = 40 →
  ∃ f, Encrypt P 1 (single_params (key_of P [] salt) salt []) (Some riv) pt = Ok f ∧
    Decrypt P user [] None [] (mk_slice f sp) = Fail EWrongPassphrase.
Proof.
  intros HP Hs Hr. assert (length (key_of P [] salt) = 80) as Hk by by apply scrypt_len.
  apply single_empty_pass with (key := key_of P [] salt) (salt := salt); try done; [|by intros E; rewrite E in Hk|by left].
  apply validate_ok. split; [|by left]. split; [done|]. split; [done|]. split; constructor; auto.
Qed.
Print Assumptions C39_empty_passphrase_refuted.

Example C39_example :
  prims_ok toy ∧ validate v1 ex_single = Ok tt ∧ length ex_key = 80 ∧
  let f := get [] (Encrypt toy 1 ex_single (Some ex_iv) ex_pt) in
  length f = 88 + 104 ∧
  Decrypt toy [] ex_pass None [] (mk_slice f []) = Ok (1%Z, single_params ex_key ex_salt ex_iv, ex_pt) ∧
  Decrypt toy [] (B "wrong") None [] (mk_slice f []) = Fail EWrongPassphrase.
Proof. split; [apply toy_ok|]. split; [|split]; [vm_compute; reflexivity..|]. cbv zeta. split; [|split]; vm_compute; reflexivity. Qed.

(** ** C40: multi-user files open for every user *)

Theorem C40_multi_round_trip_partial P p riv pt i name key sp : prims_ok P → multi_ok p → (NUsers p ≤ 9999)%Z →
  enrolled P p i name key → name ≠ [] →
  ∃ f salt, Encrypt P 1 p riv pt = Ok f ∧ Salts p !! i = Some salt ∧
    (∀ pass, Decrypt P name pass (Some key) salt (mk_slice f sp) = Ok (1%Z, params_for p i key, pt)) ∧
    (∀ pass key' salt', pass ≠ [] → key = key_of P pass salt → (key' = None ∨ key' = Some [] ∨ salt' ≠ salt) →
       Decrypt P name pass key' salt' (mk_slice f sp) = Ok (1%Z, params_for p i key, pt)).
Proof. apply multi_round_trip. Qed.
Print Assumptions C40_multi_round_trip_partial.

(** Enrolling is always possible: EncryptMasterKey succeeds on keys of the right size. *)
Theorem C40_enrol P key m iv : prims_ok P → length key = 80 → length m = 80 → length iv = 40 →
  ∃ mk, EncryptMasterKey P 1 key m (Some iv) = Ok (mk, iv) ∧ length mk = 80.
Proof. intros HP H1 H2 H3. destruct (EncryptMasterKey_ok P key m iv HP H1 H2 H3) as (mk & E & L & _). eauto. Qed.
Print Assumptions C40_enrol.

(** A user may be enrolled under the empty name but can then not log in. *)
Theorem C40_empty_name_refuted P p riv pt f pass key salt sp : prims_ok P → multi_ok p → (∀ b, riv = Some b → length b = 40) →
  Encrypt P 1 p riv pt = Ok f → Decrypt P [] pass key salt (mk_slice f sp) = Fail ENeedUser.
Proof.
  intros HP (Hv & Hn & _) Hr H. destruct (mode_agrees P 1 p riv pt f sp HP Hr H) as (_ & HE & _). apply HE. lia.
Qed.
Print Assumptions C40_empty_name_refuted.

Example C40_example :
  multi_ok ex_multi ∧ enrolled toy ex_multi 0 (B "alice") ex_key ∧ enrolled toy ex_multi 1 (B "bob") ex_key2 ∧
  let f := get [] (Encrypt toy 1 ex_multi None ex_pt) in
  Decrypt toy (B "alice") ex_pass None [] (mk_slice f []) = Ok (1%Z, params_for ex_multi 0 ex_key, ex_pt) ∧
  Decrypt toy (B "bob") ex_pass2 None [] (mk_slice f []) = Ok (1%Z, params_for ex_multi 1 ex_key2, ex_pt) ∧
  Decrypt toy (B "bob") ex_pass None [] (mk_slice f []) = Fail EWrongPassphrase.
Proof.
  split; [apply ex_multi_ok|]. split; [apply ex_alice|]. split; [apply ex_bob|]. cbv zeta. split; [|split]; vm_compute; reflexivity.
Qed.

(** ** C41: tampering with the header is detected *)

(** Whatever opens, for a user of the file: the body holds the hash of exactly
    this header and plaintext. *)
Theorem C41_integrity P u pw k s f sp v p pt : Decrypt P u pw k s (mk_slice f sp) = Ok (v, p, pt) → known P u p →
  header_len p ≤ length f ∧ body_of P p f = Ok (sha512 P (header_of p f ++ pt) ++ pt).
Proof. apply integrity. Qed.
Print Assumptions C41_integrity.

(** Two files with the same body have the same header, or a collision of
    SHA-512 has been found. *)
Theorem C41_same_body P u pw k s f sp v p pt u' pw' k' s' f' sp' v' p' pt' : prims_ok P →
  Decrypt P u pw k s (mk_slice f sp) = Ok (v, p, pt) → known P u p →
  Decrypt P u' pw' k' s' (mk_slice f' sp') = Ok (v', p', pt') → known P u' p' →
  body_of P p f = body_of P p' f' →
  pt = pt' ∧ (header_of p f = header_of p' f' ∨ collision P (header_of p f ++ pt) (header_of p' f' ++ pt)).
Proof. apply same_body. Qed.
Print Assumptions C41_same_body.

(** Altering the magic line of a single-user file. *)
Theorem C41_magic_line P u pw k s f sp v p pt f' sp' v' p' pt' u' : prims_ok P →
  Decrypt P u pw k s (mk_slice f sp) = Ok (v, p, pt) → NUsers p = 0%Z →
  Decrypt P u' pw k s (mk_slice f' sp') = Ok (v', p', pt') → NUsers p' = 0%Z →
  drop 16 f = drop 16 f' →
  pt = pt' ∧ (f = f' ∨ collision P (header_of p f ++ pt) (header_of p' f' ++ pt)).
Proof. apply single_magic. Qed.
Print Assumptions C41_magic_line.

(** Altering the other users' rows (or the magic line) of a multi-user file.
    Not covered: alterations of the user's own salt, IV and wrapped key or of
    the file's IV, which change the keys and the decoded body. *)
Theorem C41_other_rows_partial P u pw k s f sp v p pt f' sp' v' p' pt' : prims_ok P →
  Decrypt P u pw k s (mk_slice f sp) = Ok (v, p, pt) → sha256 P u ∈ Users p →
  Decrypt P u pw k s (mk_slice f' sp') = Ok (v', p', pt') → sha256 P u ∈ Users p' →
  (0 < NUsers p)%Z → NUsers p' = NUsers p → User p' = User p →
  at_ (Salts p') (Z.to_nat (User p)) = at_ (Salts p) (Z.to_nat (User p)) →
  at_ (IVs p') (Z.to_nat (User p)) = at_ (IVs p) (Z.to_nat (User p)) →
  at_ (MKeys p') (Z.to_nat (User p)) = at_ (MKeys p) (Z.to_nat (User p)) →
  IVM p' = IVM p → drop (header_len p) f' = drop (header_len p) f →
  pt = pt' ∧ (f = f' ∨ collision P (header_of p f ++ pt) (header_of p' f' ++ pt)).
Proof. apply multi_rows_tamper. Qed.
Print Assumptions C41_other_rows_partial.

(** The toy hash only covers the last 64 bytes, so with it a change of alice's
    wrapped key goes unnoticed by bob — and is a collision. *)
Definition ex_file : bytes := get [] (Encrypt toy 1 ex_multi None ex_pt).
Definition ex_tampered : bytes := <[16 + 32 + 32 + 40 := Zbyte 1]> ex_file.
Example C41_example :
  ex_tampered ≠ ex_file ∧
  (∃ p', Decrypt toy (B "bob") ex_pass2 None [] (mk_slice ex_tampered []) = Ok (1%Z, p', ex_pt) ∧
     (0 < NUsers p')%Z ∧ sha256 toy (B "bob") ∈ Users p') ∧
  collision toy (take (16 + 184 * 2 + 40) ex_file ++ ex_pt) (take (16 + 184 * 2 + 40) ex_tampered ++ ex_pt) ∧
  (* a change within the bytes the toy hash covers is noticed *)
  Decrypt toy (B "bob") ex_pass2 None [] (mk_slice (<[16 + 184 * 2 + 10 := Zbyte 1]> ex_file) []) = Fail EWrongPassphrase.
Proof.
  split; [by vm_compute|]. split; [eexists; split; [vm_compute; reflexivity|]; split; [done|by apply elem_of_list_further, elem_of_list_here]|].
  split; [|vm_compute; reflexivity]. split; [by vm_compute|]. vm_compute. reflexivity.
Qed.

(** ** C42: an unknown user gets nothing *)

(** The code tries an unknown user's passphrase on the first user's row.  If it
    is the first user's passphrase the file still does not open. *)
Theorem C42_unknown_user_partial P p riv pt name0 key0 salt0 name pass sp : prims_ok P → multi_ok p → (NUsers p ≤ 9999)%Z →
  enrolled P p 0 name0 key0 → Salts p !! 0 = Some salt0 → pass ≠ [] → key0 = key_of P pass salt0 →
  sha256 P name ∉ Users p → name ≠ [] →
  ∃ f, Encrypt P 1 p riv pt = Ok f ∧
    ∀ key' salt' v p' pt', key' = None ∨ key' = Some [] ∨ salt' ≠ salt0 →
      Decrypt P name pass key' salt' (mk_slice f sp) = Ok (v, p', pt') →
      ∃ h extra, length extra = 184 ∧ collision P (h ++ pt) (h ++ extra ++ pt).
Proof.
  intros HP H1 H2 H3 H4 H5 H6 H7 H8.
  destruct (unknown_red P p riv pt name0 key0 salt0 name pass sp HP H1 H2 H3 H4 H5 H6 H7 H8) as (h & ct & E & _ & H).
  exists (h ++ ct). split; [done|]. intros key' salt' v p' pt' Hc HD. destruct (H key' salt' Hc) as [_ H'].
  destruct (H' v p' pt' HD) as (_ & extra & HL & HC). eauto.
Qed.
Print Assumptions C42_unknown_user_partial.

(** But it is not always reported as an error: on a small file it crashes. *)
Theorem C42_unknown_user_crash_refuted P p riv pt name0 key0 salt0 name pass sp : prims_ok P → multi_ok p → (NUsers p ≤ 9999)%Z →
  enrolled P p 0 name0 key0 → Salts p !! 0 = Some salt0 → pass ≠ [] → key0 = key_of P pass salt0 →
  sha256 P name ∉ Users p → name ≠ [] →
  ∃ f, Encrypt P 1 p riv pt = Ok f ∧
    (length f + length sp < 16 + 184 * (nusers p + 1) + 40 → Decrypt P name pass None [] (mk_slice f sp) = Panic).
Proof.
  intros HP H1 H2 H3 H4 H5 H6 H7 H8.
  destruct (unknown_red P p riv pt name0 key0 salt0 name pass sp HP H1 H2 H3 H4 H5 H6 H7 H8) as (h & ct & E & _ & H).
  exists (h ++ ct). split; [done|]. destruct (H None [] (or_introl eq_refl)) as [H' _]. exact H'.
Qed.
Print Assumptions C42_unknown_user_crash_refuted.

Example C42_example :
  sha256 toy (B "mallory") ∉ Users ex_multi ∧ ex_key = key_of toy ex_pass ex_salt ∧
  Encrypt toy 1 ex_multi None ex_pt = Ok ex_file ∧ length ex_file = 16 + 184 * 2 + 40 + 104 ∧
  Decrypt toy (B "mallory") ex_pass None [] (mk_slice ex_file []) = Panic ∧
  Decrypt toy (B "mallory") ex_pass None [] (mk_slice ex_file (zeroes 600)) = Fail EWrongPassphrase ∧
  Decrypt toy (B "mallory") (B "guess") None [] (mk_slice ex_file (zeroes 600)) = Fail EWrongPassphrase.
Proof.
  split; [by vm_compute; intros H; repeat (apply elem_of_cons in H as [?|H]; [done|]); apply elem_of_nil in H|].
  split; [done|]. split; [|split; [|split; [|split]]]; vm_compute; reflexivity.
Qed.

(** ** C43: opening a damaged or foreign file is an error, never a crash *)

Theorem C43_is_multi_user_partial f sp : 16 ≤ length f →
  (∃ b, IsMultiUser (mk_slice f sp) = Ok b) ∨ IsMultiUser (mk_slice f sp) = Fail EInvalidFileFormat.
Proof. apply IsMultiUser_total. Qed.
Print Assumptions C43_is_multi_user_partial.

(** Files that are not bpass files, of an unreadable or unknown version, or of
    version 0. *)
Theorem C43_foreign_partial P u pw k s f sp : 16 ≤ length f →
  (take 8 f ≠ str_bytes magicStr → take 16 f ≠ v0Header →
     Decrypt P u pw k s (mk_slice f sp) = Fail EInvalidFileFormat) ∧
  (take 16 f = v0Header → Decrypt P u pw k s (mk_slice f sp) = Fail (EMsg "not implemented")) ∧
  (take 8 f = str_bytes magicStr → (∀ v, ParseInt (bytes_string (take 4 (drop 8 f))) ≠ Ok v) →
     Decrypt P u pw k s (mk_slice f sp) = Fail EInvalidFileFormat) ∧
  (∀ v, take 8 f = str_bytes magicStr → ParseInt (bytes_string (take 4 (drop 8 f))) = Ok v → v ≠ 1%Z →
     Decrypt P u pw k s (mk_slice f sp) = Fail (EMsg "unknown version %d, try upgrading bpass")).
Proof.
  intros Hf. split; [|split; [|split]].
  - intros. by apply Decrypt_foreign.
  - intros. by apply Decrypt_v0.
  - intros. by apply Decrypt_bad_version.
  - intros. by eapply Decrypt_version.
Qed.
Print Assumptions C43_foreign_partial.

(** For a single-user file with a full header, when exactly it crashes: the
    last argument is the file's contents decrypted with the key derived from
    the passphrase. *)
Theorem C43_single_crash_partial P u pw m s iv ct sp : prims_ok P → head_ok m 0 → length s = 32 → length iv = 40 → pw ≠ [] →
  let b := decode P (key_of P pw s) iv ct in
  Decrypt P u pw None [] (mk_slice (m ++ s ++ iv ++ ct) sp) = Panic ↔ b = Panic ∨ ∃ c, b = Ok c ∧ length c < 64.
Proof. apply single_crash. Qed.
Print Assumptions C43_single_crash_partial.

(** A file shorter than its magic (an empty file, say) crashes, whether or not
    the buffer it was read into was larger. *)
Theorem C43_short_file_refuted P u pw k s f : length f < 8 →
  (∀ n, Decrypt P u pw k s (mk_slice f (zeroes n)) = Panic) ∧ (∀ sp, IsMultiUser (mk_slice f sp) = Panic).
Proof. intros Hf. split; intros; [by apply Decrypt_short|by apply IsMultiUser_short]. Qed.
Print Assumptions C43_short_file_refuted.

(** A file cut off so that its body is not whole blocks crashes, whatever the
    passphrase. *)
Theorem C43_truncated_refuted P u pw m s iv ct salt sp : prims_ok P → head_ok m 0 → length s = 32 → length iv = 40 →
  length ct mod 8 ≠ 0 → pw ≠ [] → Decrypt P u pw None salt (mk_slice (m ++ s ++ iv ++ ct) sp) = Panic.
Proof. intros. by apply ragged_single. Qed.
Print Assumptions C43_truncated_refuted.

(** A negative user count crashes. *)
Theorem C43_negative_count_refuted P u pw m n rest sp : head_ok m n → (n < 0)%Z → u ≠ [] → pw ≠ [] →
  Decrypt P u pw None [] (mk_slice (m ++ rest) sp) = Panic.
Proof. apply negative_count. Qed.
Print Assumptions C43_negative_count_refuted.

(** A genuine file and a mistyped passphrase can crash: the last cipher's
    padding may by chance look right and leave a partial block. *)
Definition ex_pass3 : bytes := replicate 80 (Zbyte 97).
Definition ex_typo : bytes := take 64 ex_pass3 ++ replicate 7 (Zbyte 97) ++ [xor_byte (Zbyte 97) (Zbyte 9)] ++ replicate 8 (Zbyte 97).
Definition ex_single3 : Params := single_params (key_of toy ex_pass3 ex_salt) ex_salt [].
Theorem C43_wrong_passphrase_refuted : ∃ P p pass wrong riv pt f,
  prims_ok P ∧ validate v1 p = Ok tt ∧ Encrypt P 1 p (Some riv) pt = Ok f ∧
  (∃ q, Decrypt P [] pass None [] (mk_slice f []) = Ok (1%Z, q, pt)) ∧
  Decrypt P [] wrong None [] (mk_slice f []) = Panic.
Proof.
  exists toy, ex_single3, ex_pass3, ex_typo, ex_iv, ex_pt, (get [] (Encrypt toy 1 ex_single3 (Some ex_iv) ex_pt)).
  split; [apply toy_ok|]. split; [vm_compute; reflexivity|]. split; [vm_compute; reflexivity|]. split.
  - eexists. vm_compute. reflexivity.
  - vm_compute. reflexivity.
Qed.
Print Assumptions C43_wrong_passphrase_refuted.

Example C43_example :
  let f := get [] (Encrypt toy 1 ex_single (Some ex_iv) ex_pt) in
  IsMultiUser (mk_slice f []) = Ok false ∧
  IsMultiUser (mk_slice (B "%PDF-1.7 some other file") []) = Fail EInvalidFileFormat ∧
  Decrypt toy [] ex_pass None [] (mk_slice (B "%PDF-1.7 some other file") []) = Fail EInvalidFileFormat ∧
  Decrypt toy [] ex_pass None [] (mk_slice (B "blobpass0002000000000000") []) = Fail (EMsg "unknown version %d, try upgrading bpass") ∧
  Decrypt toy [] ex_pass None [] (mk_slice (take 191 f) []) = Panic ∧ (* truncated by one byte *)
  Decrypt toy [] ex_pass None [] (mk_slice [] (zeroes 512)) = Panic ∧
  head_ok (B "blobpass0001-001") (-1) ∧ head_ok (B "blobpass00010000") 0.
Proof. cbv zeta. do 6 (split; [vm_compute; reflexivity|]). split; (split; [|split; [|split]]); vm_compute; reflexivity. Qed.

(** ** C44: no passphrase, no access *)

(** For every file whatever: opening it with an empty passphrase takes a key
    and the very salt stored for the user, and that key is the one used. *)
Theorem C44_success_needs_key P u key salt f sp v p pt : Decrypt P u [] key salt (mk_slice f sp) = Ok (v, p, pt) →
  ∃ k, key = Some k ∧ k ≠ [] ∧ Salts p !! Z.to_nat (User p) = Some salt ∧ Keys p !! Z.to_nat (User p) = Some k.
Proof. apply no_pass_inv. Qed.
Print Assumptions C44_success_needs_key.

(** For files Encrypt wrote the refusal is ErrWrongPassphrase. *)
Theorem C44_single_refused P p riv pt key salt user key' salt' sp : prims_ok P → validate v1 p = Ok tt → NUsers p = 0%Z →
  Keys p !! 0 = Some key → key ≠ [] → Salts p !! 0 = Some salt → length riv = 40 → key' = None ∨ salt' ≠ salt →
  ∃ f, Encrypt P 1 p (Some riv) pt = Ok f ∧ Decrypt P user [] key' salt' (mk_slice f sp) = Fail EWrongPassphrase.
Proof. apply single_empty_pass. Qed.
Print Assumptions C44_single_refused.
Theorem C44_multi_refused P p riv pt i name key key' salt' sp : prims_ok P → multi_ok p → (NUsers p ≤ 9999)%Z →
  enrolled P p i name key → name ≠ [] →
  (key' = None ∨ key' = Some [] ∨ Salts p !! i ≠ Some salt') →
  ∃ f, Encrypt P 1 p riv pt = Ok f ∧ Decrypt P name [] key' salt' (mk_slice f sp) = Fail EWrongPassphrase.
Proof. apply multi_no_pass. Qed.
Print Assumptions C44_multi_refused.

Example C44_example :
  Decrypt toy (B "bob") [] None [] (mk_slice ex_file []) = Fail EWrongPassphrase ∧
  Decrypt toy (B "bob") [] (Some ex_key2) ex_salt (mk_slice ex_file []) = Fail EWrongPassphrase ∧
  Decrypt toy (B "bob") [] (Some ex_key2) ex_salt2 (mk_slice ex_file []) = Ok (1%Z, params_for ex_multi 1 ex_key2, ex_pt).
Proof. split; [|split]; vm_compute; reflexivity. Qed.

(** ** C45: the user prompt agrees with the file *)

Theorem C45_mode_agrees P v p riv pt f sp : prims_ok P → (∀ b, riv = Some b → length b = 40) → Encrypt P v p riv pt = Ok f →
  IsMultiUser (mk_slice f sp) = Ok (bool_decide (NUsers p ≠ 0%Z)) ∧
  (∀ pass key salt, Decrypt P [] pass key salt (mk_slice f sp) = Fail ENeedUser ↔ NUsers p ≠ 0%Z) ∧
  (∀ user pass key salt, user ≠ [] → Decrypt P user pass key salt (mk_slice f sp) ≠ Fail ENeedUser).
Proof. apply mode_agrees. Qed.
Print Assumptions C45_mode_agrees.

Example C45_example :
  IsMultiUser (mk_slice ex_file []) = Ok true ∧ Decrypt toy [] ex_pass None [] (mk_slice ex_file []) = Fail ENeedUser ∧
  IsMultiUser (mk_slice (get [] (Encrypt toy 1 ex_single (Some ex_iv) ex_pt)) []) = Ok false.
Proof. split; [|split]; vm_compute; reflexivity. Qed.

(** ** C46: bad encryption parameters are refused *)

Theorem C46_bad_sizes_refused P p riv pt : (¬ sizes_ok p ∨ NUsers p ≠ 0%Z ∧ ¬ multi_sizes_ok p) →
  ∃ e, Encrypt P 1 p riv pt = Fail e.
Proof. apply Encrypt_bad. Qed.
Print Assumptions C46_bad_sizes_refused.

Theorem C46_unknown_version_refused P v p riv pt : v ≠ 1%Z → Encrypt P v p riv pt = Fail (EMsg "unknown version %d").
Proof. apply Encrypt_version. Qed.
Print Assumptions C46_unknown_version_refused.

(** Exactly what is accepted. *)
Theorem C46_accepted P p iv pt : prims_ok P → length iv = 40 →
  (∃ f, Encrypt P 1 p (Some iv) pt = Ok f) ↔
  sizes_ok p ∧ (NUsers p = 0%Z ∧ length (at_ (Keys p) 0) = 80 ∨ NUsers p ≠ 0%Z ∧ multi_sizes_ok p ∧ is_Some (Master p) ∧ is_Some (IVM p)).
Proof. apply Encrypt_exact. Qed.
Print Assumptions C46_accepted.

(** No crash as long as a multi-user parameter set has a master key and IV. *)
Theorem C46_no_crash_partial P v p riv pt : prims_ok P → (∀ b, riv = Some b → length b = 40) →
  (NUsers p ≠ 0%Z → is_Some (Master p) ∧ is_Some (IVM p)) → Encrypt P v p riv pt ≠ Panic.
Proof. apply Encrypt_no_panic. Qed.
Print Assumptions C46_no_crash_partial.

(** Validation lets a missing master key or IV through, and that crashes. *)
Theorem C46_missing_master_refuted P p riv pt : sizes_ok p → multi_sizes_ok p → (1 ≤ NUsers p)%Z →
  Master p = None ∨ IVM p = None → validate v1 p = Ok tt ∧ Encrypt P 1 p riv pt = Panic.
Proof.
  intros Hs Hm Hn Hnil. split; [apply validate_ok; split; [done|right; split; [lia|done]]|]. by apply Encrypt_nil_key.
Qed.
Print Assumptions C46_missing_master_refuted.

(** More than 9999 users are accepted and written under a wrong user count. *)
Theorem C46_too_many_users_refuted P p riv pt : prims_ok P → multi_ok p → (∀ b, riv = Some b → length b = 40) → (9999 < NUsers p)%Z →
  ∃ f n, Encrypt P 1 p riv pt = Ok f ∧ count_field f = Ok n ∧ (n < NUsers p)%Z.
Proof.
  intros HP Hok Hr Hn. destruct (multi_genuine P p riv pt HP Hok) as (m & ivm & ct & _ & _ & _ & _ & E & _).
  destruct (Encrypt_inv P 1 p riv pt _ HP Hr E) as (_ & hd & n & rest & Hf & Hh & _ & _ & Hbig & _).
  eexists _, n. split; [exact E|]. split; [|specialize (Hbig Hn); lia].
  unfold count_field. rewrite Hf. destruct Hh as (Hl & _ & _ & Hc). by rewrite take_app_16 by lia.
Qed.
Print Assumptions C46_too_many_users_refuted.

Definition ex_many : Params := {|
  p_version := 1; NUsers := 10000; User := 0; Keys := replicate (Z.to_nat 10000) []; Salts := replicate (Z.to_nat 10000) ex_salt;
  Users := replicate (Z.to_nat 10000) (sha256 toy (B "alice")); IVs := replicate (Z.to_nat 10000) ex_iv;
  MKeys := replicate (Z.to_nat 10000) ex_master; IVM := Some ex_iv; Master := Some ex_master |}.
Example C46_example :
  Encrypt toy 1 (single_params (B "short") ex_salt []) (Some ex_iv) ex_pt = Fail (EMsg "keys[%d] must be %d bytes") ∧
  multi_ok ex_many ∧ (9999 < NUsers ex_many)%Z.
Proof. split; [vm_compute; reflexivity|]. split; [|done]. split; [vm_compute; reflexivity|]. split; [done|]. split; eauto. Qed.
