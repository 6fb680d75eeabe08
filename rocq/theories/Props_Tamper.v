(** C41: altering the file's IV, which the body's hash does not keep from being
    accepted by collision resistance alone. *)
From Verif Require Import Proof_Tamper Proof_Crypt7.
From Coq Require Import Lia.
From stdpp Require Import options.
#[local] Open Scope nat_scope.

(** When the first half of the IV of a single-user file (the bytes 48 to 63,
    the IV of AES) is replaced by something else, the same passphrase gives the
    same plaintext or none, and it gives one exactly if the hash of the new
    header and the plaintext differs from the old one by just what the IV was
    changed by. *)
Theorem C41_iv_exact P u pw k s f sp f' sp' v p pt : prims_ok P →
  Decrypt P u pw k s (mk_slice f sp) = Ok (v, p, pt) → NUsers p = 0%Z →
  length f' = length f → take 48 f' = take 48 f → drop 64 f' = drop 64 f →
  let d := xor_bytes (take 16 (drop 48 f)) (take 16 (drop 48 f')) in
  (∀ v' p' pt', Decrypt P u pw k s (mk_slice f' sp') = Ok (v', p', pt') → pt' = pt) ∧
  ((∃ r, Decrypt P u pw k s (mk_slice f' sp') = Ok r) ↔
   sha512 P (take 88 f' ++ pt) = flip16 d (sha512 P (take 88 f ++ pt))).
Proof. apply single_iv. Qed.
Print Assumptions C41_iv_exact.

(** The same for the IV of a file of several users: if both open for a user of
    both whose row is the same, then with the same plaintext and with hashes
    that differ by what the IVs differ by. *)
Theorem C41_iv_users P u pw k s f sp v p pt f' sp' v' p' pt' a a' b : prims_ok P →
  Decrypt P u pw k s (mk_slice f sp) = Ok (v, p, pt) → sha256 P u ∈ Users p →
  Decrypt P u pw k s (mk_slice f' sp') = Ok (v', p', pt') → sha256 P u ∈ Users p' →
  (0 < NUsers p)%Z → NUsers p' = NUsers p → User p' = User p →
  at_ (Salts p') (Z.to_nat (User p)) = at_ (Salts p) (Z.to_nat (User p)) →
  at_ (IVs p') (Z.to_nat (User p)) = at_ (IVs p) (Z.to_nat (User p)) →
  at_ (MKeys p') (Z.to_nat (User p)) = at_ (MKeys p) (Z.to_nat (User p)) →
  length a = 16 → length a' = 16 → length b = 24 → IVM p = Some (a ++ b) → IVM p' = Some (a' ++ b) →
  drop (header_len p) f' = drop (header_len p) f →
  pt' = pt ∧ sha512 P (header_of p' f' ++ pt) = flip16 (xor_bytes a a') (sha512 P (header_of p f ++ pt)).
Proof. apply multi_iv. Qed.
Print Assumptions C41_iv_users.

Definition ta_pass : bytes := str_bytes "correct horse".
Definition ta_salt : bytes := replicate 32 (Zbyte 115).
Definition ta_iv : bytes := map (λ n, Zbyte (Z.of_nat n + 60)) (seq 0 40).
Definition ta_pt : bytes := str_bytes "{""log"":[]}".
Definition ta_get {A} (d : A) (x : outcome A) : A := match x with Ok a => a | _ => d end.
Definition ta_file (P : prims) : bytes :=
  ta_get [] (Encrypt P 1 (single_params (key_of P ta_pass ta_salt) ta_salt []) (Some ta_iv) ta_pt).
Definition ta_altered (P : prims) : bytes := <[50 := Zbyte 7]> (ta_file P).

(** So a collision of SHA-512 need not be found to alter the header of a
    genuine file: with primitives that have all properties assumed of them but
    a weak hash there is a file whose IV can be changed so that it still opens
    with the same plaintext, while the two texts hashed are no collision. *)
Theorem C41_iv_refuted : ¬ ∀ P u pw k s f sp v p pt f' sp' v' p' pt', prims_ok P →
  Decrypt P u pw k s (mk_slice f sp) = Ok (v, p, pt) → NUsers p = 0%Z →
  Decrypt P u pw k s (mk_slice f' sp') = Ok (v', p', pt') → NUsers p' = 0%Z →
  drop 88 f' = drop 88 f → pt' = pt →
  f = f' ∨ collision P (header_of p f ++ pt) (header_of p' f' ++ pt).
Proof.
  intros H.
  destruct (Decrypt (echo 48) [] ta_pass None [] (mk_slice (ta_file (echo 48)) [])) as [[[v p] pt]| |] eqn:E; [|vm_compute in E; discriminate..].
  destruct (Decrypt (echo 48) [] ta_pass None [] (mk_slice (ta_altered (echo 48)) [])) as [[[v' p'] pt']| |] eqn:E'; [|vm_compute in E'; discriminate..].
  vm_compute in E, E'. injection E; injection E'; intros Hpt Hp _ Hpt' Hp' _. 
  destruct (H (echo 48) [] ta_pass None [] (ta_file (echo 48)) [] v p pt (ta_altered (echo 48)) [] v' p' pt' (echo_ok 48)) as [C|[_ C]].
  - vm_compute. exact E.
  - by rewrite <-Hp'.
  - vm_compute. exact E'.
  - by rewrite <-Hp.
  - vm_compute. reflexivity.
  - by rewrite <-Hpt, <-Hpt'.
  - vm_compute in C. discriminate.
  - rewrite <-Hpt', <-Hp, <-Hp' in C. vm_compute in C. discriminate.
Qed.
Print Assumptions C41_iv_refuted.

(** With the toy primitives, whose hash covers the IV in another order, the
    altered file is refused, as the theorem says. *)
Example C41_iv_example :
  (∃ p, Decrypt toy [] ta_pass None [] (mk_slice (ta_file toy) []) = Ok (1%Z, p, ta_pt) ∧ NUsers p = 0%Z) ∧
  length (ta_altered toy) = length (ta_file toy) ∧ take 48 (ta_altered toy) = take 48 (ta_file toy) ∧
  drop 64 (ta_altered toy) = drop 64 (ta_file toy) ∧
  Decrypt toy [] ta_pass None [] (mk_slice (ta_altered toy) []) = Fail EWrongPassphrase.
Proof.
  split; [eexists; split; [vm_compute; reflexivity|reflexivity]|].
  split; [vm_compute; reflexivity|]. split; [vm_compute; reflexivity|]. split; vm_compute; reflexivity.
Qed.

(** A file of one user whose IV can be changed with the hash that starts at
    it: the hypotheses of [C41_iv_users]. *)
Definition tu : prims := echo 200.
Definition tu_master : bytes := replicate 80 (Zbyte 77).
Definition tu_key : bytes := key_of tu ta_pass ta_salt.
Definition tu_p : Params := {|
  p_version := 1; NUsers := 1; User := 0; Keys := [tu_key]; Salts := [ta_salt];
  Users := [sha256 tu (str_bytes "bob")]; IVs := [ta_iv];
  MKeys := [(ta_get ([], []) (EncryptMasterKey tu 1 tu_key tu_master (Some ta_iv))).1];
  IVM := Some (reverse ta_iv); Master := Some tu_master |}.
Definition tu_file : bytes := ta_get [] (Encrypt tu 1 tu_p None ta_pt).
Definition tu_altered : bytes := <[202 := Zbyte 7]> tu_file.
Definition tu_open (f : bytes) : outcome (Z * Params * bytes) :=
  Decrypt tu (str_bytes "bob") ta_pass None [] (mk_slice f []).
Definition tu_params (f : bytes) : Params := match tu_open f with Ok (_, p, _) => p | _ => tu_p end.

Example C41_iv_users_example :
  let p := tu_params tu_file in let p' := tu_params tu_altered in
  tu_open tu_file = Ok (1%Z, p, ta_pt) ∧ tu_open tu_altered = Ok (1%Z, p', ta_pt) ∧ tu_altered ≠ tu_file ∧
  NUsers p = 1%Z ∧ NUsers p' = 1%Z ∧ User p = 0%Z ∧ User p' = 0%Z ∧ Users p = Users tu_p ∧ Users p' = Users tu_p ∧
  Salts p' = Salts p ∧ IVs p' = IVs p ∧ MKeys p' = MKeys p ∧
  IVM p = Some (reverse ta_iv) ∧ IVM p' = Some (<[2 := Zbyte 7]> (reverse ta_iv)) ∧
  drop (header_len p) tu_altered = drop (header_len p) tu_file.
Proof. cbv zeta. split_and!; try (vm_compute; reflexivity). vm_compute. discriminate. Qed.
