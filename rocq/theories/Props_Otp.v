(** C91: two factor keys are stored so that the codes of RFC 6238 are shown for them. *)
From Verif Require Import Spec_Otp Spec_Lines Spec_Main Proof_GoStr Proof_Url Proof_TxLog Proof_Blobs Proof_SessionEx Proof_Repl2 Proof_Repl3 Proof_Repl6 Proof_Lines Proof_Otp Proof_Otp2 Proof_Otp3 Proof_Otp4.
From Coq Require Import Lia.
From stdpp Require Import options.
Import Model_GoStr.
#[local] Open Scope Z_scope.

(** ** Keys *)

(** The url made of a bare key is one for time based codes and has just that key in it,
    whatever bytes the key and the uuid have. *)
Theorem C91_bare_key : ∀ uuid v, ∃ k, NewKeyFromURL (otp_coerce uuid v) = Some k ∧ key_type k = "totp" ∧ key_secret k = v.
Proof. exact coerce_key. Qed.
Print Assumptions C91_bare_key.

(** Setting a bare key is never refused; the entry then has that url. *)
Theorem C91_set_bare : ∀ up hmac now w s m q v u b inp,
  ready w s m → picks (w_lower w) m q u → m !! u = Some b → has_prefix v "otpauth://" = false →
  ∃ s', set_cmd (with_otp up hmac now w) q "totp" v s inp = (s', UOk [Report "totp" v] inp) ∧
    became s s' (<[u := <["totp" := otp_coerce u v]> (stamped (e_now (w_env w 1) 0) b)]> m).
Proof.
  intros up hmac now w s m q v u b inp Hr Hp Hb Hv. destruct (set_totp (with_otp up hmac now w) s m q v u b inp Hr Hp Hb) as [s' H].
  rewrite Hv in H. cbn [w_uri_ok w_coerce with_otp] in H. rewrite coerce_ok in H. by exists s'.
Qed.
Print Assumptions C91_set_bare.

(** An url of keys is taken as it is, if it is one. *)
Theorem C91_set_url : ∀ up hmac now w s m q v u b inp,
  ready w s m → picks (w_lower w) m q u → m !! u = Some b → has_prefix v "otpauth://" = true →
  ∃ s', (is_Some (NewKeyFromURL v) ∧ set_cmd (with_otp up hmac now w) q "totp" v s inp = (s', UOk [Report "totp" v] inp) ∧
         became s s' (<[u := <["totp" := v]> (stamped (e_now (w_env w 1) 0) b)]> m)) ∨
        (NewKeyFromURL v = None ∧ set_cmd (with_otp up hmac now w) q "totp" v s inp = (s', UOk [Note] inp) ∧ unchanged s s').
Proof.
  intros up hmac now w s m q v u b inp Hr Hp Hb Hv. destruct (set_totp (with_otp up hmac now w) s m q v u b inp Hr Hp Hb) as [s' H].
  rewrite Hv in H. cbn [w_uri_ok w_coerce with_otp] in H. exists s'. unfold otp_uri_ok in H. unfold NewKeyFromURL.
  destruct (Parse (TrimSpace v)) as [x|].
  - left. split; [by eexists|]. rewrite bool_decide_eq_true_2 in H by (by eexists). exact H.
  - right. split; [done|]. rewrite bool_decide_eq_false_2 in H by (by intros [? ?]). exact H.
Qed.
Print Assumptions C91_set_url.

(** The urls made are text, so that what is proved of sessions of text (C81) holds with them. *)
Theorem C91_text : ∀ up hmac now w, text_world w → text_world (with_otp up hmac now w).
Proof. exact otp_text. Qed.
Print Assumptions C91_text.

(** ** Codes *)

(** A key in base32, in upper or lower case, is decoded to the bytes it stands for; letters
    that stand for none are refused. *)
Theorem C91_base32 : ∀ up s key, b32_chars s → b32_decode (ToUpper up (pad8 (TrimSpace s))) = Some key ↔ b32_text s key.
Proof. exact decode_text. Qed.
Print Assumptions C91_base32.
(** Every key, whatever its bytes, has such a text. *)
Theorem C91_every_key : ∀ key, ∃ s, b32_text s key.
Proof. exact every_key. Qed.
Print Assumptions C91_every_key.
Theorem C91_padded : ∀ up hmac s now, b32_chars s → GenerateCode up hmac (pad8 s) now = GenerateCode up hmac s now.
Proof.
  intros up hmac s now H. apply padded_code. clear -H. unfold b32_chars in H. induction s as [|c s IH]; [done|]. cbn [list_ascii_of_string] in H. apply Forall_cons in H as [[v Hv] H].
  cbn [all_bytes]. rewrite IH by done. rewrite andb_true_r. unfold dark. rewrite andb_true_iff, !Z.ltb_lt. unfold b32_letter in Hv. lia.
Qed.
Print Assumptions C91_padded.

(** A text of ASCII in one line gives no code if some byte of it is neither a letter or digit of
    base32 nor the equals sign. *)
Theorem C91_no_base32 : ∀ up hmac now s c, each (λ d, byteZ d < 128 ∧ byteZ d ≠ 10 ∧ byteZ d ≠ 13) s → c ∈ list_ascii_of_string (TrimSpace s) →
  (¬ ∃ v, b32_letter c v) → byteZ c ≠ 61 → GenerateCode up hmac s now = Fail (EMsg "Decoding of secret as base32 failed.").
Proof. exact no_code. Qed.
Print Assumptions C91_no_base32.
Fixpoint blank_lines (n : nat) : string := match n with O => "" | S k => String (Zbyte 10) (blank_lines k) end.
(** In one line: after the end, other lines are passed over. *)
Theorem C91_lines_refuted : ∀ up, b32_decode (ToUpper up (pad8 (TrimSpace ("MY======" +:+ blank_lines 7 +:+ "!")))) = Some (list_ascii_of_string "f").
Proof. intros up. vm_compute. reflexivity. Qed.
Print Assumptions C91_lines_refuted.
(** Of ASCII: some other letters have capitals that are in it. *)
Theorem C91_capitals_refuted : ∀ up, up 305 = 73 → b32_decode (ToUpper up (pad8 (TrimSpace (Model_GoStr.encode (replicate 8 305))))) = b32_decode "IIIIIIII".
Proof.
  intros up H. set (t := pad8 _). vm_compute in t. subst t. unfold ToUpper. set (x := all_bytes _ _). vm_compute in x. subst x.
  set (r := runes _). vm_compute in r. subst r. cbn [fmap list_fmap]. rewrite H. vm_compute. reflexivity.
Qed.
Print Assumptions C91_capitals_refuted.

(** For a key that was set the code shown is the one of RFC 6238: HMAC of the number of half
    minutes since 1970, six digits. *)
Theorem C91_code : ∀ up hmac now uuid v key, (∀ k x, length (hmac k x) = 20%nat) → 0 ≤ now < 2 ^ 64 → b32_text v key →
  ∃ code, otp_code up hmac now (otp_coerce uuid v) = Ok code ∧ rfc_code hmac key now code.
Proof.
  intros up hmac now uuid v key Hh Hn Hk. destruct (coerce_key uuid v) as (k & E & Ht & Hs). unfold otp_code. rewrite E, Ht, Hs. change (negb (String.eqb "totp" "totp")) with false. cbv iota.
  apply code_of_key; [done|done|]. apply decode_text; [|done]. destruct Hk as (vs & spare & H & _). unfold b32_chars. clear -H. induction H as [|c x l vs Hc H IH]; constructor; [by exists x|done].
Qed.
Print Assumptions C91_code.

(** get and totp show it. *)
Theorem C91_get : ∀ up hmac now w s m q i c u b inp v key, (∀ k x, length (hmac k x) = 20%nat) → 0 ≤ now < 2 ^ 64 →
  ready w s m → picks (w_lower w) m q u → m !! u = Some b → b !! "totp" = Some (otp_coerce u v) → b32_text v key →
  ∃ s' code, get_cmd (with_otp up hmac now w) q "totp" i c s inp = (s', UOk (give c "totp" code) inp) ∧ unchanged s s' ∧ rfc_code hmac key now code.
Proof.
  intros up hmac now w s m q i c u b inp v key Hh Hn Hr Hp Hb Hv Hk. destruct (C91_code up hmac now u v key Hh Hn Hk) as (code & E & Hc).
  assert (TwoFactor (with_otp up hmac now w) b = Ok code) as ET.
  { unfold TwoFactor. change KeyTwoFactor with "totp". rewrite Hv. cbn [default w_totp with_otp]. exact E. }
  destruct (get_totp (with_otp up hmac now w) s m q i c u b inp Hr Hp Hb) as (s' & Eg & U); [by rewrite ET|]. rewrite ET in Eg.
  exists s', code. split; [|exact (conj U Hc)]. rewrite Eg. destruct (decide (code = "")) as [->|]; [|reflexivity]. destruct Hc as (_ & _ & _ & _ & _ & Hl & _). discriminate Hl.
Qed.
Print Assumptions C91_get.

(** Whatever is stored, nothing but six digits is ever given as a code, and no crash comes of
    it. *)
Theorem C91_digits : ∀ up hmac now uri, (∀ k x, length (hmac k x) = 20%nat) →
  (∃ code, otp_code up hmac now uri = Ok code ∧ String.length code = 6%nat ∧ each digit code) ∨ ∃ e, otp_code up hmac now uri = Fail e.
Proof.
  intros up hmac now uri Hh. unfold otp_code. destruct (NewKeyFromURL uri) as [k|]; [|right; by eexists]. destruct (negb _); [right; by eexists|]. by apply code_shape.
Qed.
Print Assumptions C91_digits.
(** Codes change every half minute only, *)
Theorem C91_period : ∀ up hmac uri t t', t / 30 = t' / 30 → otp_code up hmac t uri = otp_code up hmac t' uri.
Proof. intros up hmac uri t t' E. unfold otp_code, GenerateCode. by rewrite E. Qed.
Print Assumptions C91_period.

(** whatever the url of the key says about this, and about digits and the hash. *)
Theorem C91_options_refuted : ∀ up hmac now,
  otp_code up hmac now "otpauth://totp/me?secret=GEZDGNBVGY3TQOJQ&digits=8&period=60&algorithm=SHA256" = otp_code up hmac now "otpauth://totp/me?secret=GEZDGNBVGY3TQOJQ".
Proof.
  intros up hmac now. unfold otp_code.
  assert (∀ a b k k', NewKeyFromURL a = Some k → NewKeyFromURL b = Some k' → key_type k = key_type k' → key_secret k = key_secret k' →
    match NewKeyFromURL a with None => Fail (EMsg "failed to parse two factor uri for %s: %w") | Some k => if negb (String.eqb (key_type k) "totp") then Fail (EMsg "two factor key for %s was not a totp key") else GenerateCode up hmac (key_secret k) now end =
    match NewKeyFromURL b with None => Fail (EMsg "failed to parse two factor uri for %s: %w") | Some k => if negb (String.eqb (key_type k) "totp") then Fail (EMsg "two factor key for %s was not a totp key") else GenerateCode up hmac (key_secret k) now end) as H.
  { intros a b k k' -> -> E1 E2. by rewrite E1, E2. }
  eapply H; [vm_compute; reflexivity|vm_compute; reflexivity|reflexivity|vm_compute; reflexivity].
Qed.
Print Assumptions C91_options_refuted.

(** ** What is accepted and gives no code, or a wrong one *)

(** A key with blanks in it, as many sites show it, is accepted, but there is never a code. *)
Theorem C91_blanks_refuted : ∀ up hmac now uuid, otp_code up hmac now (otp_coerce uuid "gezd gnbv gy3t qojq") = Fail (EMsg "Decoding of secret as base32 failed.").
Proof.
  intros up hmac now uuid. destruct (coerce_key uuid "gezd gnbv gy3t qojq") as (k & E & Ht & Hs). unfold otp_code. rewrite E, Ht, Hs.
  change (negb (String.eqb "totp" "totp")) with false. cbv iota. unfold GenerateCode.
  assert (b32_decode (ToUpper up (pad8 (TrimSpace "gezd gnbv gy3t qojq"))) = None) as ->; [|done].
  assert (TrimSpace "gezd gnbv gy3t qojq" = "gezd gnbv gy3t qojq") as -> by (vm_compute; reflexivity). vm_compute. reflexivity.
Qed.
Print Assumptions C91_blanks_refuted.

Lemma otp_words w : w = "set" ∨ w = "totp" ∨ w = "mail" → typed w.
Proof.
  intros [->|[->| ->]]; (split; [done|]); intros x Hx; repeat (apply elem_of_cons in Hx as [->|Hx]; [by vm_compute|]); by apply elem_of_nil in Hx.
Qed.
(** "set mail totp" without a key replaces the key by the empty one, and codes are shown for
    that. *)
Theorem C91_overwritten_refuted : ∀ ctx q u, typed q → q ≠ "" → ctx = "" →
  parse_line false ctx (go_join " " ["set"; q; "totp"]) = Run (KSet q "totp" "") ∧
  ∀ up hmac now w s m b inp, (∀ k x, length (hmac k x) = 20%nat) → 0 ≤ now < 2 ^ 64 →
    ready w s m → picks (w_lower w) m q u → m !! u = Some b →
    ∃ s' code, set_cmd (with_otp up hmac now w) q "totp" "" s inp = (s', UOk [Report "totp" ""] inp) ∧
      became s s' (<[u := <["totp" := otp_coerce u ""]> (stamped (e_now (w_env w 1) 0) b)]> m) ∧
      otp_code up hmac now (otp_coerce u "") = Ok code ∧ rfc_code hmac [] now code.
Proof.
  intros ctx q u Ht Hq ->. split.
  - apply typed_means; [constructor; [by apply otp_words; left|constructor; [done|constructor; [by apply otp_words; right; left|constructor]]]|]. split; [|done].
    apply (means_set "" [q; "totp"] q "totp" []); [done|done|]. by left.
  - intros up hmac now w s m b inp Hh Hn Hr Hp Hb. destruct (C91_set_bare up hmac now w s m q "" u b inp Hr Hp Hb eq_refl) as (s' & E & B).
    destruct (C91_code up hmac now u "" [] Hh Hn) as (code & Ec & Hc); [exists [], []; split; [constructor|]; split; [done|cbn; lia]|]. exists s', code. exact (conj E (conj B (conj Ec Hc))).
Qed.
Print Assumptions C91_overwritten_refuted.

(** So does an url without a key. *)
Theorem C91_no_key_refuted : ∀ up hmac now, (∀ k x, length (hmac k x) = 20%nat) → 0 ≤ now < 2 ^ 64 →
  ∃ code, otp_code up hmac now "otpauth://totp/me" = Ok code ∧ rfc_code hmac [] now code.
Proof.
  intros up hmac now Hh Hn. destruct (code_of_key up hmac "" now [] Hh Hn) as (code & E & H); [reflexivity|]. exists code. split; [|done].
  unfold otp_code. assert (NewKeyFromURL "otpauth://totp/me" = Some (mk_key "otpauth://totp/me" (mk_url "otpauth" "" None "totp" "/me"))) as -> by (vm_compute; reflexivity). exact E.
Qed.
Print Assumptions C91_no_key_refuted.

(** Keys for counted codes are accepted, but never give one. *)
Theorem C91_counted_refuted : ∀ up hmac now, otp_uri_ok "otpauth://hotp/me?secret=GEZDGNBV&counter=1" = true ∧
  otp_code up hmac now "otpauth://hotp/me?secret=GEZDGNBV&counter=1" = Fail (EMsg "two factor key for %s was not a totp key").
Proof. intros up hmac now. split; vm_compute; reflexivity. Qed.
Print Assumptions C91_counted_refuted.

(** ** Examples *)

(** A text for the bytes "12345", and one with something to spare *)
Example C91_example : b32_text "GEZDGNBV" (list_ascii_of_string "12345") ∧ b32_text "my" (list_ascii_of_string "f") ∧ has_prefix "gezdgnbv" "otpauth://" = false ∧
  ready ex_world se_single se_m ∧ picks toy_lower se_m "mail" "u1" ∧ se_m !! "u1" = Some se_mail ∧ typed "mail".
Proof.
  split; [exists [6; 4; 25; 3; 6; 13; 1; 21], []; split; [|split; [vm_compute; reflexivity|cbn; lia]]|].
  { cbn [list_ascii_of_string]. repeat (constructor; [first [left; split; [lia|first [left; vm_compute; reflexivity|right; vm_compute; reflexivity]]|right; split; [lia|vm_compute; reflexivity]]|]). constructor. }
  split; [exists [12; 24], [0; 0]; split; [|split; [vm_compute; reflexivity|cbn; lia]]|].
  { cbn [list_ascii_of_string]. repeat (constructor; [first [left; split; [lia|first [left; vm_compute; reflexivity|right; vm_compute; reflexivity]]|right; split; [lia|vm_compute; reflexivity]]|]). constructor. }
  split; [done|]. split; [apply ex_ready|]. split; [apply ex_picks|]. split; [apply ex_m_u1|]. apply otp_words. by right; right.
Qed.
(** The first code of appendix D of RFC 4226: the HMAC given there gives 755224. *)
Definition rfc_mac : list Ascii.ascii := Zbyte <$> [204; 147; 207; 24; 80; 141; 148; 147; 76; 100; 182; 93; 139; 167; 102; 127; 183; 205; 228; 176].
Example C91_rfc4226 : GenerateCode (λ r, r) (λ _ _, rfc_mac) "gezdgnbvgy3tqojqgezdgnbvgy3tqojq" 29 = Ok "755224".
Proof. vm_compute. reflexivity. Qed.
