(** C91, for keys given as urls. *)
From Verif Require Import Spec_Otp Spec_Lines Spec_Main Proof_GoStr Proof_Url Proof_TxLog Proof_Blobs Proof_SessionEx Proof_Repl2 Proof_Repl3 Proof_Repl6 Proof_Lines Proof_Otp Proof_Otp2 Proof_Otp3 Proof_Otp4 Proof_OtpUrl Props_Otp.
From Coq Require Import Lia.
From stdpp Require Import options.
Import Model_GoStr.
#[local] Open Scope Z_scope.

(** In an url with any label and any values the key is the first value called secret. *)
Theorem C91_url_key : ∀ label before v after, Forall (λ p, p.1 ≠ "secret") before →
  ∃ k, NewKeyFromURL (otp_url label (before ++ ("secret", v) :: after)) = Some k ∧ key_type k = "totp" ∧ key_secret k = v.
Proof. exact otp_url_key. Qed.
Print Assumptions C91_url_key.

(** The name may have escaped characters too. *)
Theorem C91_url_name : ∃ k, NewKeyFromURL "otpauth://totp/me?%73ecr%65t=GEZDGNBV&secret=MY" = Some k ∧ key_type k = "totp" ∧ key_secret k = "GEZDGNBV".
Proof. exists (mk_key "otpauth://totp/me?%73ecr%65t=GEZDGNBV&secret=MY" (mk_url "otpauth" "" None "totp" "/me")). split; [|split]; vm_compute; reflexivity. Qed.
Print Assumptions C91_url_name.

(** The code is that of RFC 6238 for this key. *)
Theorem C91_url_code : ∀ up hmac now label before v after key, (∀ k x, length (hmac k x) = 20%nat) → 0 ≤ now < 2 ^ 64 →
  Forall (λ p, p.1 ≠ "secret") before → b32_text v key →
  ∃ code, otp_code up hmac now (otp_url label (before ++ ("secret", v) :: after)) = Ok code ∧ rfc_code hmac key now code.
Proof.
  intros up hmac now label before v after key Hh Hn Hb Hk. destruct (otp_url_key label before v after Hb) as (k & E & Ht & Hs). unfold otp_code. rewrite E, Ht, Hs. change (negb (String.eqb "totp" "totp")) with false. cbv iota.
  apply code_of_key; [done|done|]. apply decode_text; [|done]. destruct Hk as (vs & spare & H & _). unfold b32_chars. clear -H. induction H as [|c x l vs Hc H IH]; constructor; [by exists x|done].
Qed.
Print Assumptions C91_url_code.

(** set takes the url and stores it as it is. *)
Theorem C91_url_set : ∀ up hmac now w s m q label before v after u b inp, Forall (λ p, p.1 ≠ "secret") before →
  ready w s m → picks (w_lower w) m q u → m !! u = Some b →
  let url := otp_url label (before ++ ("secret", v) :: after) in
  ∃ s', set_cmd (with_otp up hmac now w) q "totp" url s inp = (s', UOk [Report "totp" url] inp) ∧
    became s s' (<[u := <["totp" := url]> (stamped (e_now (w_env w 1) 0) b)]> m).
Proof.
  intros up hmac now w s m q label before v after u b inp Hbf Hr Hp Hb url. destruct (otp_url_key label before v after Hbf) as (k & E & _).
  destruct (C91_set_url up hmac now w s m q url u b inp Hr Hp Hb) as (s' & [(_ & H)|(E' & _)]); [reflexivity|by exists s'|]. unfold url in E'. rewrite E in E'. discriminate E'.
Qed.
Print Assumptions C91_url_set.

(** get and totp show the code for it. *)
Theorem C91_url_get : ∀ up hmac now w s m q i c u b inp label before v after key, (∀ k x, length (hmac k x) = 20%nat) → 0 ≤ now < 2 ^ 64 →
  ready w s m → picks (w_lower w) m q u → m !! u = Some b → Forall (λ p, p.1 ≠ "secret") before →
  b !! "totp" = Some (otp_url label (before ++ ("secret", v) :: after)) → b32_text v key →
  ∃ s' code, get_cmd (with_otp up hmac now w) q "totp" i c s inp = (s', UOk (give c "totp" code) inp) ∧ unchanged s s' ∧ rfc_code hmac key now code.
Proof.
  intros up hmac now w s m q i c u b inp label before v after key Hh Hn Hr Hp Hb Hbf Hv Hk. destruct (C91_url_code up hmac now label before v after key Hh Hn Hbf Hk) as (code & E & Hc).
  assert (TwoFactor (with_otp up hmac now w) b = Ok code) as ET.
  { unfold TwoFactor. change KeyTwoFactor with "totp". rewrite Hv. cbn [default w_totp with_otp]. exact E. }
  destruct (get_totp (with_otp up hmac now w) s m q i c u b inp Hr Hp Hb) as (s' & Eg & U); [by rewrite ET|]. rewrite ET in Eg.
  exists s', code. split; [|exact (conj U Hc)]. rewrite Eg. destruct (decide (code = "")) as [->|]; [|reflexivity]. destruct Hc as (_ & _ & _ & _ & _ & Hl & _). discriminate Hl.
Qed.
Print Assumptions C91_url_get.

Example C91_url_example : otp_url "Example Inc:me@example.org" [("issuer", "Example Inc"); ("secret", "GEZDGNBV"); ("digits", "6")] =
    "otpauth://totp/Example%20Inc:me@example.org?issuer=Example+Inc&secret=GEZDGNBV&digits=6" ∧
  Forall (λ p, p.1 ≠ "secret") [("issuer", "Example Inc")] ∧ b32_text "GEZDGNBV" (list_ascii_of_string "12345") ∧
  ready ex_world se_single se_m ∧ picks toy_lower se_m "mail" "u1" ∧ se_m !! "u1" = Some se_mail.
Proof.
  split; [vm_compute; reflexivity|]. split; [constructor; [discriminate|constructor]|]. destruct C91_example as (H & _). split; [exact H|].
  split; [apply ex_ready|]. split; [apply ex_picks|apply ex_m_u1].
Qed.
