(** Notions used to state the crypt properties. *)
From Verif Require Export Model_Crypt.
From stdpp Require Import options.

(** What is assumed of the primitives: output sizes, and that each block cipher
    is a permutation of its blocks. *)
Record prims_ok (P : prims) : Prop := {
  sha256_len : ∀ b, length (sha256 P b) = 32%nat;
  sha512_len : ∀ b, length (sha512 P b) = 64%nat;
  scrypt_len : ∀ p s n, length (scrypt P p s n) = n;
  enc_len : ∀ a k b, length k = alg_key a → length b = alg_block a → length (blk_enc P a k b) = alg_block a;
  dec_len : ∀ a k b, length k = alg_key a → length b = alg_block a → length (blk_dec P a k b) = alg_block a;
  dec_enc : ∀ a k b, length k = alg_key a → length b = alg_block a → blk_dec P a k (blk_enc P a k b) = b;
  enc_dec : ∀ a k b, length k = alg_key a → length b = alg_block a → blk_enc P a k (blk_dec P a k b) = b;
}.

(** Two different inputs with the same SHA-512. *)
Definition collision (P : prims) (x y : bytes) : Prop := x ≠ y ∧ sha512 P x = sha512 P y.

(** The key a passphrase gives with a salt. *)
Definition key_of (P : prims) (pass salt : bytes) : bytes := scrypt P pass salt 80.

(** The first 16 bytes of a version 1 file, and the user count they claim. *)
Definition head_ok (m : bytes) (n : Z) : Prop :=
  length m = 16%nat ∧ take 8 m = str_bytes magicStr ∧
  ParseInt (bytes_string (take 4 (drop 8 m))) = Ok 1%Z ∧
  ParseInt (bytes_string (take 4 (drop 12 m))) = Ok n.

(** The parts of a single-user file. *)
Definition single_file (magic salt iv ct : bytes) : bytes := magic ++ salt ++ iv ++ ct.
Definition single_params (key salt iv : bytes) : Params := {|
  p_version := 1; NUsers := 0; User := 0; Keys := [key]; Salts := [salt]; Users := [];
  IVs := [iv]; MKeys := []; IVM := None; Master := None |}.

(** The parts of a multi-user file: row [j] of the user table and all rows. *)
Definition at_ (l : list bytes) (j : nat) : bytes := default [] (l !! j).
Definition row (p : Params) (j : nat) : bytes :=
  at_ (Users p) j ++ at_ (Salts p) j ++ at_ (IVs p) j ++ at_ (MKeys p) j.
Definition table (p : Params) (i n : nat) : bytes := concat (map (row p) (seq i n)).
Definition nusers (p : Params) : nat := Z.to_nat (NUsers p).

(** What Decrypt gives user [i] of a file written with [p]: everything but the
    other users' keys. *)
Definition params_for (p : Params) (i : nat) (key : bytes) : Params := {|
  p_version := 1; NUsers := NUsers p; User := Z.of_nat i;
  Keys := <[i := key]> (replicate (nusers p) []);
  Salts := Salts p; Users := Users p; IVs := IVs p; MKeys := MKeys p; IVM := IVM p; Master := Master p |}.

(** The sizes and counts Encrypt needs: for any file, and for several users. *)
Definition sizes_ok (p : Params) : Prop :=
  Keys p ≠ [] ∧ Salts p ≠ [] ∧
  Forall (λ k, length k = 0%nat ∨ length k = 80%nat) (Keys p) ∧ Forall (λ s, length s = 32%nat) (Salts p).
Definition multi_sizes_ok (p : Params) : Prop :=
  zlen (Keys p) = NUsers p ∧ zlen (Salts p) = NUsers p ∧ (0 ≤ User p < NUsers p)%Z ∧
  zlen (Users p) = NUsers p ∧ Forall (λ s, length s = 32%nat) (Users p) ∧
  zlen (IVs p) = NUsers p ∧ Forall (λ s, length s = 40%nat) (IVs p) ∧
  zlen (MKeys p) = NUsers p ∧ Forall (λ s, length s = 80%nat) (MKeys p) ∧
  (∀ b, IVM p = Some b → length b = 40%nat) ∧ (∀ b, Master p = Some b → length b = 80%nat).


(** [p] is a multi-user parameter set that Encrypt accepts. *)
Definition multi_ok (p : Params) : Prop :=
  validate v1 p = Ok tt ∧ (1 ≤ NUsers p)%Z ∧ is_Some (IVM p) ∧ is_Some (Master p).

(** User [i] of [p] is called [name] and has key [key]: the name is found at
    [i] first, and the stored master key is the one wrapped for that key. *)
Definition enrolled (P : prims) (p : Params) (i : nat) (name key : bytes) : Prop :=
  Users p !! i = Some (sha256 P name) ∧
  (∀ j, (j < i)%nat → Users p !! j ≠ Some (sha256 P name)) ∧
  ∃ m iv mk, Master p = Some m ∧ IVs p !! i = Some iv ∧ MKeys p !! i = Some mk ∧
    EncryptMasterKey P 1 key m (Some iv) = Ok (mk, iv).

(** The body (hash and plaintext) obtained from a ciphertext with a key and IV. *)
Definition decode (P : prims) (key iv ct : bytes) : outcome bytes :=
  cs ← makeCiphers key 0 (c_algs v1);
  unseal P (reverse cs) iv (length iv) ct.

(** Given the parameters Decrypt returned for a file: the length of its header,
    and the body (hash and plaintext) its ciphertext stands for. *)
Definition header_len (p : Params) : nat :=
  if (NUsers p =? 0)%Z then 88 else (16 + 184 * nusers p + 40)%nat.
Definition header_of (p : Params) (f : bytes) : bytes := take (header_len p) f.
Definition body_of (P : prims) (p : Params) (f : bytes) : outcome bytes :=
  if (NUsers p =? 0)%Z then decode P (at_ (Keys p) 0) (at_ (IVs p) 0) (drop (header_len p) f)
  else decode P (nil_bytes (Master p)) (nil_bytes (IVM p)) (drop (header_len p) f).

(** The user is one of those in the file (or it is a single-user file). *)
Definition known (P : prims) (user : bytes) (p : Params) : Prop :=
  NUsers p = 0%Z ∨ sha256 P user ∈ Users p.

(** The user count a file claims. *)
Definition count_field (f : bytes) : outcome Z := ParseInt (bytes_string (take 4 (drop 12 f))).

(** A toy instance, for examples: scrypt concatenates, ciphers XOR the key. *)
Definition fit (n : nat) (b : bytes) : bytes := take n (b ++ zeroes n).
Definition toy : prims := {|
  sha256 := λ b, fit 32 b;
  sha512 := λ b, fit 64 (reverse b);
  scrypt := λ p s n, fit n (p ++ s);
  blk_enc := λ a k b, xor_bytes b (take (alg_block a) k);
  blk_dec := λ a k b, xor_bytes b (take (alg_block a) k) |}.
