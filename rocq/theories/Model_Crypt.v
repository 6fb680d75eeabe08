(** Model of crypt/crypto.go, crypt/crypto_v1.go, crypt/crypto_v0.go and
    crypt/params.go.

    The ciphers, the hashes and scrypt are parameters ([prims]); the code's own
    work — file layout, CBC chaining, padding, offsets, checks — is spelled out.
    Random bytes are arguments: [None] is a failing reader, [Some b] the bytes
    read (theorems assume [b] has the length asked for).

    The file is a Go slice with its spare capacity ([slice byte] of Base.v)
    because the code reslices it upwards.  Every other slice is taken to have
    no spare capacity; aliasing plays no role since the only in-place writes
    are to freshly made buffers. *)
From Verif Require Export Model_Pkcs7.
From stdpp Require Import options.

(** ** Primitives *)

(** crypt/crypto.go:79-85: the block ciphers by name. *)
Inductive alg := AES | Camellia | CAST5.

Definition alg_key (a : alg) : nat :=
  match a with AES => 32 | Camellia => 32 | CAST5 => 16 end.
Definition alg_block (a : alg) : nat :=
  match a with AES => 16 | Camellia => 16 | CAST5 => 8 end.

(** Key sizes are those the constructors accept, so [CTOR] never errors and a
    cipher is just its algorithm and key. *)
Record prims := {
  sha256 : bytes → bytes;
  sha512 : bytes → bytes;
  scrypt : bytes → bytes → nat → bytes;          (* passphrase, salt, key length *)
  blk_enc : alg → bytes → bytes → bytes;         (* algorithm, key, block *)
  blk_dec : alg → bytes → bytes → bytes;
}.

(** ** Slices and buffers *)

Definition zero_byte : byte := Zbyte 0.

(** [make([]byte, n)] *)
Definition make_bytes (n : Z) : outcome bytes :=
  if (n <? 0)%Z then Panic else Ok (replicate (Z.to_nat n) zero_byte).

(** [b[lo:hi]] for a slice without spare capacity *)
Definition bsub (b : bytes) (lo hi : nat) : outcome bytes :=
  if ((lo <=? hi) && (hi <=? length b))%nat then Ok (take (hi - lo) (drop lo b)) else Panic.

(** [b[n:]] *)
Definition bfrom (b : bytes) (n : nat) : outcome bytes :=
  if (n <=? length b)%nat then Ok (drop n b) else Panic.

(** [s[lo:hi]] and [s[n:]] with spare capacity *)
Definition slice_range (s : slice byte) (lo hi : Z) : outcome bytes :=
  let all := vis s ++ spare s in
  if ((0 <=? lo) && (lo <=? hi) && (hi <=? Z.of_nat (length all)))%Z
  then Ok (take (Z.to_nat (hi - lo)) (drop (Z.to_nat lo) all)) else Panic.
Definition slice_from (s : slice byte) (n : nat) : outcome (slice byte) :=
  if (n <=? length (vis s))%nat then Ok (mk_slice (drop n (vis s)) (spare s)) else Panic.

(** [copy(buf[off:], src)], giving the new contents of [buf] *)
Definition copy_at (buf : bytes) (off : nat) (src : bytes) : outcome bytes :=
  if (off <=? length buf)%nat
  then Ok (take off buf ++ take (length buf - off) src ++ drop (off + length src) buf)
  else Panic.

(** [l[i]] *)
Definition idx {A} (l : list A) (i : nat) : outcome A :=
  match l !! i with Some x => Ok x | None => Panic end.

Definition beq (a b : bytes) : bool := bool_decide (a = b).

(** ** crypto/cipher: CBC mode *)

Definition xor_byte (a b : byte) : byte :=
  match a, b with
  | Ascii.Ascii a0 a1 a2 a3 a4 a5 a6 a7, Ascii.Ascii b0 b1 b2 b3 b4 b5 b6 b7 =>
      Ascii.Ascii (xorb a0 b0) (xorb a1 b1) (xorb a2 b2) (xorb a3 b3)
                  (xorb a4 b4) (xorb a5 b5) (xorb a6 b6) (xorb a7 b7)
  end.
Definition xor_bytes (a b : bytes) : bytes := zip_with xor_byte a b.

Fixpoint chunks_fuel (fuel n : nat) (l : bytes) : list bytes :=
  match fuel with
  | O => []
  | S f => match l with [] => [] | _ => take n l :: chunks_fuel f n (drop n l) end
  end.
Definition chunks (n : nat) (l : bytes) : list bytes := chunks_fuel (length l) n l.

Fixpoint cbc_enc_blocks (E : bytes → bytes) (prev : bytes) (l : list bytes) : list bytes :=
  match l with
  | [] => []
  | b :: r => let c := E (xor_bytes b prev) in c :: cbc_enc_blocks E c r
  end.
Fixpoint cbc_dec_blocks (D : bytes → bytes) (prev : bytes) (l : list bytes) : list bytes :=
  match l with
  | [] => []
  | c :: r => xor_bytes (D c) prev :: cbc_dec_blocks D c r
  end.

(** [cbc.CryptBlocks(b, b)] of [NewCBCEncrypter(cipher, iv)] / decrypter: a
    panic unless the input is whole blocks (the IVs passed always have the
    block length, so [NewCBC...] itself does not panic). *)
Definition cbc_encrypt (P : prims) (a : alg) (k iv b : bytes) : outcome bytes :=
  if (length b mod alg_block a =? 0)%nat
  then Ok (concat (cbc_enc_blocks (blk_enc P a k) iv (chunks (alg_block a) b))) else Panic.
Definition cbc_decrypt (P : prims) (a : alg) (k iv b : bytes) : outcome bytes :=
  if (length b mod alg_block a =? 0)%nat
  then Ok (concat (cbc_dec_blocks (blk_dec P a k) iv (chunks (alg_block a) b))) else Panic.

(** ** Versions: crypt/crypto.go:43-117 *)

Record config := {
  c_version : Z;
  c_algs : list alg;
  c_saltSize : nat;
  c_keySize : nat;
  c_blockSize : nat;
}.

(** crypt/crypto.go:95-117, [makeVersion] (the functions of the config are
    those of version 1, modelled directly) *)
Definition makeVersion (version : Z) (saltSize : nat) (algs : list alg) : config := {|
  c_version := version; c_algs := algs; c_saltSize := saltSize;
  c_keySize := sum_list_with alg_key algs;
  c_blockSize := sum_list_with alg_block algs |}.

(** crypt/crypto.go:88-91, [init] *)
Definition v1 : config := makeVersion 1 32 [AES; Camellia; CAST5].

(** crypt/crypto.go:262-269, [getVersion] *)
Definition getVersion (version : Z) : outcome config :=
  if (version =? 1)%Z then Ok v1 else Fail (EMsg "unknown version %d").

(** crypt/crypto.go:290-303, [makeCiphers] *)
Fixpoint makeCiphers (key : bytes) (off : nat) (suite : list alg) : outcome (list (alg * bytes)) :=
  match suite with
  | [] => Ok []
  | a :: r =>
      k ← bsub key off (off + alg_key a);
      rest ← makeCiphers key (off + alg_key a) r;
      Ok ((a, k) :: rest)
  end.

(** ** Params: crypt/params.go:15-51.  A nil key, salt, … in a list is the
    empty list of bytes; [Master] and [IVM] distinguish nil ([None]). *)
Record Params := {
  p_version : Z;
  NUsers : Z;
  User : Z;
  Keys : list bytes;
  Salts : list bytes;
  Users : list bytes;
  IVs : list bytes;
  MKeys : list bytes;
  IVM : option bytes;
  Master : option bytes;
}.

(** [for i, x := range l { if bad(x) { return err } }] *)
Definition check_all (ok : bytes → bool) (msg : string) (l : list bytes) : outcome unit :=
  if forallb ok l then Ok tt else Fail (EMsg msg).
Definition check (ok : bool) (msg : string) : outcome unit :=
  if ok then Ok tt else Fail (EMsg msg).
Definition zlen {A} (l : list A) : Z := Z.of_nat (length l).
Definition len_is (n : nat) (b : bytes) : bool := (length b =? n)%nat.

(** crypt/params.go:54-120, [validate] *)
Definition validate (c : config) (p : Params) : outcome unit :=
  _ ← check (negb (zlen (Keys p) =? 0)%Z) "must have at least one key";
  _ ← check (negb (zlen (Salts p) =? 0)%Z) "must have at least one salt";
  _ ← check_all (λ k, len_is 0 k || len_is (c_keySize c) k) "keys[%d] must be %d bytes" (Keys p);
  _ ← check_all (len_is (c_saltSize c)) "salts[%d] must be %d bytes" (Salts p);
  if (NUsers p =? 0)%Z then Ok tt
  else
    _ ← check (zlen (Keys p) =? NUsers p)%Z "each user must have a key";
    _ ← check (zlen (Salts p) =? NUsers p)%Z "each user must have a salt";
    _ ← check ((0 <=? User p) && (User p <? NUsers p))%Z "user should be an index of 0 <= user < nUsers";
    _ ← check (zlen (Users p) =? NUsers p)%Z "users must be the same length as nusers";
    _ ← check_all (len_is 32) "users[%d] must be %d bytes" (Users p);
    _ ← check (zlen (IVs p) =? NUsers p)%Z "ivs must be the same length as nusers";
    _ ← check_all (len_is (c_blockSize c)) "ivs[%d] must be %d bytes" (IVs p);
    _ ← check (zlen (MKeys p) =? NUsers p)%Z "mkeys must be the same length as nusers";
    _ ← check_all (len_is (c_keySize c)) "mkeys[%d] must be %d bytes" (MKeys p);
    _ ← check (match IVM p with Some b => len_is (c_blockSize c) b | None => true end) "ivm must be %d bytes";
    check (match Master p with Some b => len_is (c_keySize c) b | None => true end) "master key must be %d bytes".

(** ** Layout *)

Definition str_bytes (s : string) : bytes := String.list_ascii_of_string s.
Definition bytes_string (b : bytes) : string := String.string_of_list_ascii b.

(** crypt/crypto.go:31-32 *)
Definition magicLen : nat := 16.
Definition magicStr : string := "blobpass".

Fixpoint zeros (n : nat) : string :=
  match n with O => "" | S n' => String (Zbyte 48) (zeros n') end.
(** [fmt.Sprintf("%04d", z)] *)
Definition fmt04 (z : Z) : string :=
  if (z <? 0)%Z
  then let s := FormatInt (- z) in "-" +:+ zeros (3 - String.length s) +:+ s
  else let s := FormatInt z in zeros (4 - String.length s) +:+ s.

(** crypt/crypto_v1.go:70 and 109 *)
Definition magic_line (version nusers : Z) : bytes :=
  str_bytes (magicStr +:+ fmt04 version +:+ fmt04 nusers).

(** crypt/crypto_v1.go:83-94 and 150-162: pad and encrypt with every cipher *)
Fixpoint seal (P : prims) (ciphers : list (alg * bytes)) (iv : bytes) (off : nat) (work : bytes) : outcome bytes :=
  match ciphers with
  | [] => Ok work
  | (a, k) :: r =>
      ivp ← bsub iv off (off + alg_block a);
      padded ← Pad work (Z.of_nat (alg_block a));
      work' ← cbc_encrypt P a k ivp padded;
      seal P r iv (off + alg_block a) work'
  end.

(** crypt/crypto_v1.go:193-203: the same without padding *)
Fixpoint wrap (P : prims) (ciphers : list (alg * bytes)) (iv : bytes) (off : nat) (work : bytes) : outcome bytes :=
  match ciphers with
  | [] => Ok work
  | (a, k) :: r =>
      ivp ← bsub iv off (off + alg_block a);
      work' ← cbc_encrypt P a k ivp work;
      wrap P r iv (off + alg_block a) work'
  end.

(** [iv[off-n:off]] *)
Definition bback (iv : bytes) (off n : nat) : outcome bytes :=
  if (n <=? off)%nat then bsub iv (off - n) off else Panic.

(** crypt/crypto_v1.go:260-277 and 412-429: decrypt and unpad with every cipher,
    last one first ([ciphers] is given reversed) *)
Fixpoint unseal (P : prims) (ciphers : list (alg * bytes)) (iv : bytes) (off : nat) (ct : bytes) : outcome bytes :=
  match ciphers with
  | [] => Ok ct
  | (a, k) :: r =>
      ivp ← bback iv off (alg_block a);
      pt ← cbc_decrypt P a k ivp ct;
      match Unpad pt with
      | Ok ct' => unseal P r iv (off - alg_block a) ct'
      | Fail _ => Fail EWrongPassphrase
      | Panic => Panic
      end
  end.

(** crypt/crypto_v1.go:390-398 *)
Fixpoint unwrap (P : prims) (ciphers : list (alg * bytes)) (iv : bytes) (off : nat) (ct : bytes) : outcome bytes :=
  match ciphers with
  | [] => Ok ct
  | (a, k) :: r =>
      ivp ← bback iv off (alg_block a);
      ct' ← cbc_decrypt P a k ivp ct;
      unwrap P r iv (off - alg_block a) ct'
  end.

(** ** Encryption *)

(** crypt/crypto_v1.go:19-30 and crypto.go:164-171, [NewMasterKey] *)
Definition NewMasterKey (version : Z) (rmaster rivm : option bytes) : outcome (bytes * bytes) :=
  _ ← getVersion version;
  match rmaster, rivm with
  | Some m, Some i => Ok (m, i)
  | _, _ => Fail (EMsg "randomness")
  end.

(** crypt/crypto.go:242-260, [DeriveKey], and crypto_v1.go:447-449, [deriveKeyV1]
    (scrypt's parameters are constant and valid, so it does not error) *)
Definition deriveKeyV1 (P : prims) (c : config) (pass salt : bytes) : bytes :=
  scrypt P pass salt (c_keySize c).
Definition DeriveKey (P : prims) (version : Z) (pass : bytes) (rsalt : option bytes) : outcome (bytes * bytes) :=
  c ← getVersion version;
  match rsalt with
  | Some salt => Ok (deriveKeyV1 P c pass salt, salt)
  | None => Fail (EMsg "failed to get randomness for salt: %w")
  end.

(** crypt/crypto_v1.go:167-206, [encryptMasterKeyV1], and crypto.go:154-161 *)
Definition EncryptMasterKey (P : prims) (version : Z) (userKey master : bytes) (riv : option bytes) : outcome (bytes * bytes) :=
  c ← getVersion version;
  _ ← check (len_is (c_keySize c) master) "master key wrong size";
  _ ← check (len_is (c_keySize c) userKey) "user key size wrong";
  ciphers ← makeCiphers userKey 0 (c_algs c);
  match riv with
  | None => Fail (EMsg "error generating randomness for iv: %w")
  | Some iv => crypted ← wrap P ciphers iv 0 master; Ok (crypted, iv)
  end.

(** crypt/crypto_v1.go:44-97, [encryptV1Single] *)
Definition encryptV1Single (P : prims) (c : config) (p : Params) (riv : option bytes) (plaintext : bytes) : outcome bytes :=
  key ← idx (Keys p) 0;
  _ ← check (len_is (c_keySize c) key) "key size is wrong for the cipher suite";
  salt ← idx (Salts p) 0;
  _ ← check (len_is (c_saltSize c) salt) "salt size is wrong";
  ciphers ← makeCiphers key 0 (c_algs c);
  match riv with
  | None => Fail (EMsg "failed to get randomness for iv: %w")
  | Some iv =>
      h ← make_bytes (Z.of_nat (magicLen + c_saltSize c + c_blockSize c));
      h ← copy_at h 0 (magic_line (c_version c) 0);
      h ← copy_at h magicLen salt;
      h ← copy_at h (magicLen + c_saltSize c) iv;
      work ← seal P ciphers iv 0 (sha512 P (h ++ plaintext) ++ plaintext);
      Ok (h ++ work)
  end.

(** crypt/crypto_v1.go:105 *)
Definition userSize (c : config) : nat := 32 + c_saltSize c + c_blockSize c + c_keySize c.

(** crypt/crypto_v1.go:113-131: the user table, from user [i], [n] users *)
Fixpoint put_users (c : config) (p : Params) (i n : nat) (h : bytes) (off : nat) : outcome (bytes * nat) :=
  match n with
  | O => Ok (h, off)
  | S n' =>
      key ← idx (Keys p) i;
      _ ← check (len_is 0 key || len_is (c_keySize c) key) "key size is wrong for the cipher suite";
      salt ← idx (Salts p) i;
      _ ← check (len_is (c_saltSize c) salt) "salt size is wrong";
      user ← idx (Users p) i;
      h ← copy_at h off user;
      h ← copy_at h (off + 32) salt;
      iv ← idx (IVs p) i;
      h ← copy_at h (off + 32 + c_saltSize c) iv;
      mkey ← idx (MKeys p) i;
      h ← copy_at h (off + 32 + c_saltSize c + c_blockSize c) mkey;
      put_users c p (S i) n' h (off + userSize c)
  end.

Definition nil_bytes (o : option bytes) : bytes := default [] o.

(** crypt/crypto_v1.go:99-165, [encryptV1Multi] *)
Definition encryptV1Multi (P : prims) (c : config) (p : Params) (plaintext : bytes) : outcome bytes :=
  h ← make_bytes (Z.of_nat magicLen + Z.of_nat (userSize c) * NUsers p + Z.of_nat (c_blockSize c));
  h ← copy_at h 0 (magic_line (c_version c) (NUsers p));
  '(h, off) ← put_users c p 0 (Z.to_nat (NUsers p)) h magicLen;
  h ← copy_at h off (nil_bytes (IVM p));
  ciphers ← makeCiphers (nil_bytes (Master p)) 0 (c_algs c);
  work ← seal P ciphers (nil_bytes (IVM p)) 0 (sha512 P (h ++ plaintext) ++ plaintext);
  Ok (h ++ work).

(** crypt/crypto.go:138-149, [Encrypt], and crypto_v1.go:37-42, [encryptV1].
    [riv]: the random IV drawn for a single-user file. *)
Definition Encrypt (P : prims) (version : Z) (p : Params) (riv : option bytes) (plaintext : bytes) : outcome bytes :=
  c ← getVersion version;
  _ ← validate c p;
  if (NUsers p =? 0)%Z then encryptV1Single P c p riv plaintext
  else encryptV1Multi P c p plaintext.

(** ** Decryption *)

(** crypt/crypto.go:272-288, [verifyMagic] *)
Definition verifyMagic (e : slice byte) : outcome Z :=
  magicString ← slice_range e 0 8;
  rest ← slice_from e 8;
  versionString ← slice_range rest 0 4;
  if negb (beq (str_bytes magicStr) magicString) then Fail EInvalidFileFormat
  else match ParseInt (bytes_string versionString) with
       | Ok v => Ok v
       | _ => Fail EInvalidFileFormat
       end.

(** crypt/crypto.go:221-233, [IsMultiUser] *)
Definition IsMultiUser (e : slice byte) : outcome bool :=
  _ ← verifyMagic e;
  nUsers ← slice_range e 12 16;
  match ParseInt (bytes_string nUsers) with
  | Ok i => Ok (negb (i =? 0)%Z)
  | _ => Fail EInvalidFileFormat
  end.

(** crypt/crypto_v1.go:279-292 / 432-442: split off and compare the hash.
    [ciphertext[64:]] panics on anything shorter than 64 bytes. *)
Definition open_body (P : prims) (header body : bytes) : outcome bytes :=
  orig ← bsub body 0 64;
  plaintext ← bfrom body 64;
  if beq orig (sha512 P (header ++ plaintext)) then Ok plaintext else Fail EWrongPassphrase.

(** crypt/crypto_v1.go:228-307, [decryptV1Single] *)
Definition decryptV1Single (P : prims) (c : config) (pass : bytes) (key : option bytes) (salt : bytes)
    (e : slice byte) : outcome (Params * bytes) :=
  let hl := (magicLen + c_saltSize c + c_blockSize c)%nat in
  newSalt ← slice_range e (Z.of_nat magicLen) (Z.of_nat (magicLen + c_saltSize c));
  let derive :=
    if (length pass =? 0)%nat then Fail EWrongPassphrase
    else Ok (deriveKeyV1 P c pass newSalt, newSalt) in
  '(key, salt) ← match key with
                 | Some k => if negb (beq salt newSalt) then derive else Ok (k, salt)
                 | None => derive
                 end;
  ciphers ← makeCiphers key 0 (c_algs c);
  ct ← make_bytes (zlen (vis e) - Z.of_nat hl);
  rest ← slice_from e hl;
  ct ← copy_at ct 0 (vis rest);
  iv ← slice_range e (Z.of_nat (magicLen + c_saltSize c)) (Z.of_nat hl);
  body ← unseal P (reverse ciphers) iv (length iv) ct;
  magic ← slice_range e 0 (Z.of_nat magicLen);
  plaintext ← open_body P (magic ++ salt ++ iv) body;
  Ok ({| p_version := 0; NUsers := 0; User := 0; Keys := [key]; Salts := [salt]; Users := [];
         IVs := [iv]; MKeys := []; IVM := None; Master := None |}, plaintext).

(** A user table read from the header. *)
Record utable := { t_users : list bytes; t_salts : list bytes; t_ivs : list bytes; t_mkeys : list bytes }.

(** [copy(dst, h[:n]); h = h[n:]] with [dst] of [n] bytes: [h[n:]] panics
    beyond the length of [h], so its spare capacity plays no role. *)
Definition pull (h : bytes) (n : nat) : outcome (bytes * bytes) :=
  if (n <=? length h)%nat then Ok (take n h, drop n h) else Panic.

(** crypt/crypto_v1.go:318-338: read [n] users *)
Fixpoint read_users (c : config) (n : nat) (h : bytes) : outcome (utable * bytes) :=
  match n with
  | O => Ok ({| t_users := []; t_salts := []; t_ivs := []; t_mkeys := [] |}, h)
  | S n' =>
      '(u, h) ← pull h 32;
      '(s, h) ← pull h (c_saltSize c);
      '(i, h) ← pull h (c_blockSize c);
      '(m, h) ← pull h (c_keySize c);
      '(t, h) ← read_users c n' h;
      Ok ({| t_users := u :: t_users t; t_salts := s :: t_salts t;
             t_ivs := i :: t_ivs t; t_mkeys := m :: t_mkeys t |}, h)
  end.

(** crypt/crypto_v1.go:323-325: the first index whose hash matches, or -1 *)
Fixpoint find_user (hash : bytes) (i : Z) (l : list bytes) : Z :=
  match l with
  | [] => -1
  | u :: r => if beq u hash then i else find_user hash (i + 1) r
  end.

Definition zeroes (n : nat) : bytes := replicate n zero_byte.

(** crypt/crypto_v1.go:309-445, [decryptV1Multi] *)
Definition decryptV1Multi (P : prims) (c : config) (nUsers : Z) (user pass : bytes) (key : option bytes)
    (salt : bytes) (e : slice byte) : outcome (Params * bytes) :=
  let userHash := sha256 P user in
  rest ← slice_from e magicLen;
  '(t, h) ← read_users c (Z.to_nat nUsers) (vis rest);
  let found := find_user userHash 0 (t_users t) in
  let unknown := (found <? 0)%Z in
  (* lines 340-352: for an unknown user dummy entries are appended, but
     p.User becomes len(p.Keys)-1 = 0, p.Keys having been empty *)
  let usr := if unknown then 0%Z else found in
  let nUsers := if unknown then (nUsers + 1)%Z else nUsers in
  let salts := if unknown then t_salts t ++ [zeroes (c_saltSize c)] else t_salts t in
  let ivs := if unknown then t_ivs t ++ [zeroes (c_blockSize c)] else t_ivs t in
  let mkeys := if unknown then t_mkeys t ++ [zeroes (c_keySize c)] else t_mkeys t in
  '(ivm, h) ← pull h (c_blockSize c);
  usalt ← idx salts (Z.to_nat usr);
  '(key, salt) ← if ((length (nil_bytes key) =? 0)%nat || negb (beq salt usalt))
                 then if (length pass =? 0)%nat then Fail EWrongPassphrase
                      else Ok (deriveKeyV1 P c pass usalt, usalt)
                 else Ok (nil_bytes key, salt);
  (* p.Keys = make([][]byte, p.NUsers); p.Keys[p.User] = key *)
  keys ← (if (nUsers <? 0)%Z then Panic
          else if (usr <? nUsers)%Z then Ok (<[Z.to_nat usr := key]> (replicate (Z.to_nat nUsers) []))
          else Panic);
  let salts := <[Z.to_nat usr := salt]> salts in
  ciphers ← makeCiphers key 0 (c_algs c);
  iv ← idx ivs (Z.to_nat usr);
  mkey ← idx mkeys (Z.to_nat usr);
  master ← unwrap P (reverse ciphers) iv (length iv) mkey;
  ciphers ← makeCiphers master 0 (c_algs c);
  body ← unseal P (reverse ciphers) ivm (length ivm) h;
  header ← slice_range e 0 (Z.of_nat magicLen + Z.of_nat (userSize c) * nUsers + Z.of_nat (c_blockSize c));
  plaintext ← open_body P header body;
  Ok ({| p_version := 0; NUsers := nUsers; User := usr; Keys := keys; Salts := salts; Users := t_users t;
         IVs := ivs; MKeys := mkeys; IVM := Some ivm; Master := Some master |}, plaintext).

(** crypt/crypto_v1.go:208-226, [decryptV1] *)
Definition decryptV1 (P : prims) (c : config) (user pass : bytes) (key : option bytes) (salt : bytes)
    (e : slice byte) : outcome (Params * bytes) :=
  nUserBytes ← slice_range e 12 16;
  match ParseInt (bytes_string nUserBytes) with
  | Ok nUsers =>
      if negb (nUsers =? 0)%Z && (length user =? 0)%nat then Fail ENeedUser
      else if (nUsers =? 0)%Z then decryptV1Single P c pass key salt e
      else decryptV1Multi P c nUsers user pass key salt e
  | _ => Fail EInvalidFileFormat
  end.

(** crypt/crypto.go:37-41, [v0Header] *)
Definition v0Header : bytes :=
  map Zbyte [107; 110; 105; 111; 112; 97; 115; 115; 48; 48; 48; 48; 48; 48; 48; 49]%Z.

Definition tag_version (v : Z) (p : Params) : Params := {|
  p_version := v; NUsers := NUsers p; User := User p; Keys := Keys p; Salts := Salts p; Users := Users p;
  IVs := IVs p; MKeys := MKeys p; IVM := IVM p; Master := Master p |}.

(** crypt/crypto.go:185-213, [Decrypt]; version 0 files are never readable
    (crypto_v0.go:9-11). *)
Definition Decrypt (P : prims) (user pass : bytes) (key : option bytes) (salt : bytes) (e : slice byte)
    : outcome (Z * Params * bytes) :=
  first ← slice_range e 0 (zlen v0Header);
  if beq v0Header first then Fail (EMsg "not implemented")
  else
    version ← verifyMagic e;
    match getVersion version with
    | Ok c =>
        '(p, pt) ← decryptV1 P c user pass key salt e;
        Ok (version, tag_version version p, pt)
    | _ => Fail (EMsg "unknown version %d, try upgrading bpass")
    end.
