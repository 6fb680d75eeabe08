(** Proofs about two factor keys given as urls. *)
From Verif Require Import Spec_Otp Proof_GoStr Proof_Trim Proof_Url Proof_Dialogue Proof_Otp.
From Coq Require Import Lia.
From stdpp Require Import options.
Import Model_GoStr.
#[local] Open Scope Z_scope.

Definition safe_pairs (b : Z) : bool := safe_query b || among b "&=".
Lemma safe_pairs_dark b : safe_pairs b = true → dark b = true.
Proof. unfold safe_pairs, safe_query, dark, is_alnum, among, inr. cbn. unfold byteZ. rewrite !orb_true_iff, !andb_true_iff, !Z.eqb_eq, !Z.leb_le, !Z.ltb_lt. intuition (subst; (lia || done)). Qed.
Lemma safe_path_dark b : safe_path b = true → dark b = true.
Proof. unfold safe_path, dark, is_alnum, among, inr. cbn. unfold byteZ. rewrite !orb_true_iff, !andb_true_iff, !Z.eqb_eq, !Z.leb_le, !Z.ltb_lt. intuition (subst; (lia || done)). Qed.

Section url.
  Context (label query : string) (Hq : all_bytes safe_pairs query = true).
  Let url := "otpauth:" +:+ "//totp/" +:+ PathEscape label +:+ String (Zbyte 63) query.
  Lemma url_dark : all_bytes dark url = true.
  Proof using Hq.
    unfold url. rewrite !all_app. cbn [all_bytes]. 
    rewrite (all_mono _ _ _ safe_path_dark (path_safe label)), (all_mono _ _ _ safe_pairs_dark Hq). done.
  Qed.
  Lemma label_lacks c : safe_path (byteZ c) = false → lacks c (PathEscape label).
  Proof using Type. intros Hc. eapply all_lacks_of; [apply path_safe|done]. Qed.
  Lemma query_lacks c : safe_pairs (byteZ c) = false → lacks c query.
  Proof using Hq. intros Hc. eapply all_lacks_of; [exact Hq|done]. Qed.
  Lemma url_cut : cut (Zbyte 35) url = (url, None).
  Proof using Hq.
    apply cut_none. unfold url. rewrite !lacks_app. split; [cbn; repeat split; discriminate|]. split; [cbn; repeat split; discriminate|].
    split; [by apply label_lacks|]. split; [discriminate|by apply query_lacks].
  Qed.
  Lemma url_question : cut (Zbyte 63) ("//totp/" +:+ PathEscape label +:+ String (Zbyte 63) query) = ("//totp/" +:+ PathEscape label, Some query).
  Proof using Type. rewrite <-sapp_assoc. apply cut_at. rewrite lacks_app. split; [cbn; repeat split; discriminate|by apply label_lacks]. Qed.
  Lemma url_parse : Parse url = Some (mk_url "otpauth" "" None "totp" (String (Zbyte 47) label)).
  Proof using Hq.
    unfold Parse. rewrite url_cut. unfold parse.
    assert (has_ctl url = false) as ->.
    { unfold has_ctl. apply negb_false_iff. eapply all_mono; [|apply url_dark]. intros b. unfold dark. rewrite andb_true_iff, negb_true_iff, orb_false_iff, Z.ltb_lt, Z.ltb_lt, Z.ltb_ge, Z.eqb_neq. lia. }
    destruct (String.eqb_spec url "*") as [E|_]; [discriminate E|]. unfold url. rewrite getscheme_otp.
    cbn [mbind option_bind]. cbv zeta. change (lower_ascii "otpauth") with "otpauth". rewrite url_question.
    cbn [fst]. change (first_is 47 ("//totp/" +:+ PathEscape label)) with true. change (String.eqb "otpauth" "") with false. cbn [negb andb orb].
    change ("//totp/" +:+ PathEscape label) with (String (Zbyte 47) (String (Zbyte 47) ("totp" +:+ String (Zbyte 47) (PathEscape label)))). cbv iota.
    rewrite (byteZ_Zbyte 47) by lia. change (47 =? 47) with true. cbv iota.
    rewrite cut_at by (cbn; repeat split; discriminate).
    change (parseAuthority "totp") with (Some (None : option userinfo, "totp")). cbn [mbind option_bind first_is]. cbn [andb orb mbind option_bind].
    assert (unescape encodePath (String (Zbyte 47) (PathEscape label)) = Some (String (Zbyte 47) label)) as ->.
    { rewrite unescape_plain by done. by rewrite PathEscape_back. }
    cbn. done.
  Qed.
  Lemma url_key : ∃ k, NewKeyFromURL url = Some k ∧ key_type k = "totp" ∧ key_secret k = query_get query "secret".
  Proof using Hq.
    unfold NewKeyFromURL. rewrite dark_trim by apply url_dark. rewrite url_parse. cbn [mbind option_bind]. eexists. split; [reflexivity|]. split; [done|].
    unfold key_secret. cbn [k_orig]. unfold raw_query. rewrite url_cut. cbn [fst]. unfold url. rewrite getscheme_otp, url_question. done.
  Qed.
End url.

Lemma pair_safe p : all_bytes safe_pairs (otp_pair p) = true.
Proof.
  unfold otp_pair. rewrite !all_app. cbn [all_bytes].
  assert (∀ s, all_bytes safe_pairs (QueryEscape s) = true) as H.
  { intros s. eapply all_mono; [|apply query_safe]. intros b Hb. unfold safe_pairs. by rewrite Hb. }
  by rewrite !H.
Qed.
Lemma pairs_safe l : all_bytes safe_pairs (go_join "&" (otp_pair <$> l)) = true.
Proof.
  induction l as [|p l IH]; [done|]. destruct l as [|p2 l]; [apply pair_safe|].
  rewrite !fmap_cons. rewrite join_cons by done. rewrite <- fmap_cons. rewrite !all_app. rewrite IH, pair_safe. done.
Qed.
Lemma pair_read p : query_pair (otp_pair p) = Some p.
Proof.
  destruct p as [k v]. unfold query_pair, otp_pair. cbn [fst snd].
  assert (∀ c s, safe_query (byteZ c) = false → lacks c (QueryEscape s)) as HL by (intros c s Hc; eapply all_lacks_of; [apply query_safe|done]).
  rewrite (cut_none (Zbyte 59)) by (rewrite !lacks_app; split; [by apply HL|]; split; [cbn; repeat split; discriminate|by apply HL]).
  change ("=" +:+ QueryEscape v) with (String (Zbyte 61) (QueryEscape v)).
  destruct (String.eqb_spec (QueryEscape k +:+ String (Zbyte 61) (QueryEscape v)) "") as [E|_]; [by destruct (QueryEscape k)|].
  rewrite cut_at by by apply HL. change (default "" (Some (QueryEscape v))) with (QueryEscape v). rewrite !query_back. reflexivity.
Qed.
Lemma pairs_read l : l ≠ [] → parse_query (go_join "&" (otp_pair <$> l)) = l.
Proof.
  intros Hl. unfold parse_query. change "&" with (String (Zbyte 38) ""). rewrite Proof_GoStr.split_join; [| |].
  - clear Hl. induction l as [|p l IH]; [done|]. cbn. rewrite pair_read. f_equal. exact IH.
  - by destruct l.
  - intros x (p & -> & _)%elem_of_list_fmap. unfold otp_pair.
    assert (∀ c s, safe_query (byteZ c) = false → lacks c (QueryEscape s)) as HL by (intros c s Hc; eapply all_lacks_of; [apply query_safe|done]).
    rewrite !lacks_app. split; [by apply HL|]. split; [cbn; repeat split; discriminate|by apply HL].
Qed.
Lemma pairs_get before v after : Forall (λ p, p.1 ≠ "secret") before →
  query_get (go_join "&" (otp_pair <$> before ++ ("secret", v) :: after)) "secret" = v.
Proof.
  intros H. unfold query_get. rewrite pairs_read by (by destruct before).
  induction H as [|p l Hp H IH]; [done|]. cbn. destruct (String.eqb_spec p.1 "secret"); done.
Qed.
Lemma otp_url_key label before v after : Forall (λ p, p.1 ≠ "secret") before →
  ∃ k, NewKeyFromURL (otp_url label (before ++ ("secret", v) :: after)) = Some k ∧ key_type k = "totp" ∧ key_secret k = v.
Proof.
  intros H. destruct (url_key label (go_join "&" (otp_pair <$> before ++ ("secret", v) :: after)) (pairs_safe _)) as (k & E & Ht & Hs).
  exists k. rewrite pairs_get in Hs by done. split; [|done]. rewrite <- E. unfold otp_url.
  change "otpauth://totp/" with ("otpauth:" +:+ "//totp/"). by rewrite sapp_assoc.
Qed.
