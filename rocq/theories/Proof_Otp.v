(** Proofs about the urls of two factor keys. *)
From Verif Require Import Spec_Otp Proof_GoStr Proof_Trim Proof_Url Proof_Dialogue.
From Coq Require Import Lia.
From stdpp Require Import options.
Import Model_GoStr.
#[local] Open Scope Z_scope.

(** ** Text without white space *)
Definition dark (b : Z) : bool := (32 <? b) && (b <? 127).
Lemma space_not_dark r : IsSpace r = true → ∃ c t d u, encode_rune r = String c t ∧ dark (byteZ c) = false ∧ encode_rune r = u +:+ String d "" ∧ dark (byteZ d) = false.
Proof.
  rewrite IsSpace_spaces. unfold spaces. intros H.
  repeat (apply elem_of_cons in H as [->|H]; [match goal with |- context [encode_rune ?x] => let y := eval vm_compute in (encode_rune x) in change (encode_rune x) with y end;
    match goal with |- context [String ?a ""] => 
    first [exists a, "", a, ""; done | match goal with |- ∃ c t d u, String ?p (String a "") = _ ∧ _ => exists p, (String a ""), a, (String p ""); done | |- ∃ c t d u, String ?p (String ?q (String a "")) = _ ∧ _ => exists p, (String q (String a "")), a, (String p (String q "")); done end] end|]).
  by apply elem_of_nil in H.
Qed.
Lemma sapp_last a c b d : a +:+ String c "" = b +:+ String d "" → c = d.
Proof.
  revert b. induction a as [|x a IH]; intros [|y b]; cbn.
  - by intros [= ->].
  - intros [= -> H]. by destruct b.
  - intros [= -> H]. by destruct a.
  - intros [= -> H]. by apply IH in H.
Qed.
Lemma dark_tight c s d t : String c s = t +:+ String d "" → dark (byteZ c) = true → dark (byteZ d) = true → tight (String c s).
Proof.
  intros E Hc Hd r x Hr. destruct (space_not_dark r Hr) as (c' & t' & d' & u' & E1 & H1 & E2 & H2). split.
  - rewrite E1. intros [= -> _]. congruence.
  - rewrite E, E2, <-sapp_assoc. intros ->%sapp_last. congruence.
Qed.
Lemma snoc_of c s : ∃ t d, String c s = t +:+ String d "".
Proof. revert c. induction s as [|x s IH]; intros c; [by exists "", c|]. destruct (IH x) as (t & d & E). exists (String c t), d. by rewrite E. Qed.
Lemma dark_trim s : all_bytes dark s = true → TrimSpace s = s.
Proof.
  destruct s as [|c s]; [done|]. intros H. destruct (snoc_of c s) as (t & d & E). apply TrimSpace_id. eapply dark_tight; [exact E|..].
  - cbn [all_bytes] in H. by apply andb_true_iff in H as [? _].
  - rewrite E, all_app in H. apply andb_true_iff in H as [_ H]. cbn [all_bytes] in H. by apply andb_true_iff in H as [? _].
Qed.

(** ** Escaped text *)
Definition safe_query (b : Z) : bool := is_alnum b || among b "-_.~+%".
Definition safe_path (b : Z) : bool := is_alnum b || among b "-_.~$&+:=@%".
Lemma percent_all p c t : (∀ b, is_alnum b = true → p b = true) → p 37 = true → all_bytes p t = true → all_bytes p (percent c t) = true.
Proof.
  intros Ha Hp Ht. unfold percent. cbn [all_bytes]. rewrite (byteZ_Zbyte 37) by lia. rewrite Hp, Ht. destruct (hex_alnum c) as [H1 H2]. by rewrite (Ha _ H1), (Ha _ H2).
Qed.
Lemma query_safe s : all_bytes safe_query (QueryEscape s) = true.
Proof.
  induction s as [|c s IH]; [done|]. cbn [QueryEscape]. destruct (is_alnum (byteZ c) || among (byteZ c) "-_.~") eqn:E.
  - cbn [all_bytes]. rewrite IH, andb_true_r. enough ((is_alnum (byteZ c) || among (byteZ c) "-_.~") && negb (safe_query (byteZ c)) = false) as Y by (rewrite E in Y; by apply negb_false_iff in Y).
    clear. bytes_of c; by vm_compute.
  - destruct (byteZ c =? 32); [cbn [all_bytes]; by rewrite IH|]. apply percent_all; [intros b Hb; unfold safe_query; by rewrite Hb|reflexivity|exact IH].
Qed.
Lemma path_safe s : all_bytes safe_path (PathEscape s) = true.
Proof.
  induction s as [|c s IH]; [done|]. cbn [PathEscape]. destruct (is_alnum (byteZ c) || among (byteZ c) "-_.~$&+:=@") eqn:E.
  - cbn [all_bytes]. rewrite IH, andb_true_r. enough ((is_alnum (byteZ c) || among (byteZ c) "-_.~$&+:=@") && negb (safe_path (byteZ c)) = false) as Y by (rewrite E in Y; by apply negb_false_iff in Y).
    clear. bytes_of c; by vm_compute.
  - apply percent_all; [intros b Hb; unfold safe_path; by rewrite Hb|reflexivity|exact IH].
Qed.
Lemma QueryUnescape_percent c t : QueryUnescape (percent c t) = String c <$> QueryUnescape t.
Proof. unfold percent. cbn [QueryUnescape]. rewrite (byteZ_Zbyte 37) by lia. destruct (hex_back c) as (-> & -> & H3 & H4). change (37 =? 37) with true. cbv iota zeta. by rewrite H3. Qed.
Lemma query_back s : QueryUnescape (QueryEscape s) = Some s.
Proof.
  induction s as [|c s IH]; [done|]. cbn [QueryEscape]. destruct (is_alnum (byteZ c) || among (byteZ c) "-_.~") eqn:E.
  - cbn [QueryUnescape]. assert (byteZ c =? 37 = false) as ->.
    { apply Z.eqb_neq. intros X. by rewrite X in E. }
    assert (byteZ c =? 43 = false) as ->.
    { apply Z.eqb_neq. intros X. by rewrite X in E. }
    by rewrite IH.
  - destruct (Z.eqb_spec (byteZ c) 32) as [X|X].
    + cbn [QueryUnescape]. rewrite (byteZ_Zbyte 43) by lia. change (43 =? 37) with false. change (43 =? 43) with true. cbv iota. rewrite IH. cbn. by rewrite <-X, Zbyte_byteZ.
    + rewrite QueryUnescape_percent. by rewrite IH.
Qed.
Lemma PathEscape_back s : unescape encodePath (PathEscape s) = Some s.
Proof.
  induction s as [|c s IH]; [done|]. cbn [PathEscape]. destruct (is_alnum (byteZ c) || among (byteZ c) "-_.~$&+:=@") eqn:E.
  - rewrite unescape_plain; [by rewrite IH|].
    enough ((is_alnum (byteZ c) || among (byteZ c) "-_.~$&+:=@") && shouldEscape c encodePath = false) as Y by (by rewrite E in Y).
      clear. bytes_of c; by vm_compute.
  - rewrite unescape_percent. cbn. by rewrite IH.
Qed.

(** ** The url of a bare key *)
Lemma all_lacks_of p c s : all_bytes p s = true → p (byteZ c) = false → lacks c s.
Proof.
  intros H Hc. apply all_lacks. eapply all_mono; [|exact H]. intros b Hb. apply negb_true_iff, Z.eqb_neq. intros ->. congruence.
Qed.
Definition bare_path (uuid : string) : string := PathEscape ("bpass:" +:+ uuid).
Lemma coerce_shape uuid key : otp_coerce uuid key = "otpauth:" +:+ "//totp/" +:+ bare_path uuid +:+ String (Zbyte 63) ("secret=" +:+ QueryEscape key).
Proof. unfold otp_coerce, bare_path. change "otpauth://totp/" with ("otpauth:" +:+ "//totp/"). rewrite sapp_assoc. reflexivity. Qed.
Lemma split_none c s : lacks c s → split_on c s = [s].
Proof. induction s as [|x s IH]; [done|]. intros [H1 H2]. cbn [split_on]. rewrite (IH H2). destruct (Ascii.eqb_spec x c) as [->|]; done. Qed.
Lemma coerce_query key : query_get ("secret=" +:+ QueryEscape key) "secret" = key.
Proof.
  unfold query_get, parse_query.
  assert (∀ c, safe_query (byteZ c) = false → lacks c (QueryEscape key)) as HL by (intros c Hc; eapply all_lacks_of; [apply query_safe|done]).
  rewrite split_none by (rewrite lacks_app; split; [cbn; repeat split; discriminate|by apply HL]).
  cbn [omap list_omap]. unfold query_pair. rewrite (cut_none (Zbyte 59)) by (rewrite lacks_app; split; [cbn; repeat split; discriminate|by apply HL]).
  change (String.eqb ("secret=" +:+ QueryEscape key) "") with false. cbv iota.
  change ("secret=" +:+ QueryEscape key) with ("secret" +:+ String (Zbyte 61) (QueryEscape key)).
  rewrite cut_at by (cbn; repeat split; discriminate). change (default "" (Some (QueryEscape key))) with (QueryEscape key). rewrite query_back. reflexivity.
Qed.
Lemma coerce_dark uuid key : all_bytes dark (otp_coerce uuid key) = true.
Proof.
  rewrite coerce_shape. rewrite !all_app. cbn [all_bytes]. rewrite !all_app.
  assert (all_bytes dark (bare_path uuid) = true) as ->.
  { eapply all_mono; [|apply path_safe]. intros b. unfold safe_path, dark, is_alnum, among, inr. cbn. unfold byteZ. rewrite !orb_true_iff, !andb_true_iff, !Z.eqb_eq, !Z.leb_le, !Z.ltb_lt. intuition (subst; (lia || done)). }
  assert (all_bytes dark (QueryEscape key) = true) as ->; [|done].
  eapply all_mono; [|apply query_safe]. intros b. unfold safe_query, dark, is_alnum, among, inr. cbn. unfold byteZ. rewrite !orb_true_iff, !andb_true_iff, !Z.eqb_eq, !Z.leb_le, !Z.ltb_lt. intuition (subst; (lia || done)).
Qed.
Lemma getscheme_otp rest : getscheme ("otpauth:" +:+ rest) = Some ("otpauth", rest).
Proof. done. Qed.
Lemma coerce_parse uuid key : Parse (otp_coerce uuid key) = Some (mk_url "otpauth" "" None "totp" (String (Zbyte 47) ("bpass:" +:+ uuid))).
Proof.
  unfold Parse.
  assert (∀ c, safe_path (byteZ c) = false → lacks c (bare_path uuid)) as HP by (intros c Hc; eapply all_lacks_of; [apply path_safe|done]).
  assert (∀ c, safe_query (byteZ c) = false → lacks c (QueryEscape key)) as HQ by (intros c Hc; eapply all_lacks_of; [apply query_safe|done]).
  rewrite (cut_none (Zbyte 35)).
  2: { rewrite coerce_shape, !lacks_app. split; [cbn; repeat split; discriminate|]. split; [cbn; repeat split; discriminate|]. split; [by apply HP|]. split; [discriminate|].
       rewrite lacks_app. split; [cbn; repeat split; discriminate|by apply HQ]. }
  unfold parse.
  assert (has_ctl (otp_coerce uuid key) = false) as ->.
  { unfold has_ctl. apply negb_false_iff. eapply all_mono; [|apply coerce_dark]. intros b. unfold dark. rewrite andb_true_iff, negb_true_iff, orb_false_iff, Z.ltb_lt, Z.ltb_lt, Z.ltb_ge, Z.eqb_neq. lia. }
  rewrite coerce_shape. rewrite getscheme_otp.
  destruct (String.eqb_spec ("otpauth:" +:+ "//totp/" +:+ bare_path uuid +:+ String (Zbyte 63) ("secret=" +:+ QueryEscape key)) "*") as [E|_]; [discriminate E|].
  cbn [mbind option_bind]. cbv zeta. change (lower_ascii "otpauth") with "otpauth".
  assert (cut (Zbyte 63) ("//totp/" +:+ bare_path uuid +:+ String (Zbyte 63) ("secret=" +:+ QueryEscape key)) = ("//totp/" +:+ bare_path uuid, Some ("secret=" +:+ QueryEscape key))) as ->.
  { rewrite <-sapp_assoc. apply cut_at. rewrite lacks_app. split; [cbn; repeat split; discriminate|by apply HP]. }
  cbn [fst]. change (first_is 47 ("//totp/" +:+ bare_path uuid)) with true. change (String.eqb "otpauth" "") with false. cbn [negb andb orb].
  change ("//totp/" +:+ bare_path uuid) with (String (Zbyte 47) (String (Zbyte 47) ("totp" +:+ String (Zbyte 47) (bare_path uuid)))). cbv iota.
  rewrite (byteZ_Zbyte 47) by lia. change (47 =? 47) with true. cbv iota.
  rewrite cut_at by (cbn; repeat split; discriminate).
  change (parseAuthority "totp") with (Some (None : option userinfo, "totp")). cbn [mbind option_bind first_is]. cbn [andb orb mbind option_bind].
  assert (unescape encodePath (String (Zbyte 47) (bare_path uuid)) = Some (String (Zbyte 47) ("bpass:" +:+ uuid))) as ->.
  { rewrite unescape_plain by done. unfold bare_path. by rewrite PathEscape_back. }
  cbn. done.
Qed.
Lemma coerce_key uuid key : ∃ k, NewKeyFromURL (otp_coerce uuid key) = Some k ∧ key_type k = "totp" ∧ key_secret k = key.
Proof.
  unfold NewKeyFromURL. rewrite dark_trim by apply coerce_dark. rewrite coerce_parse. cbn [mbind option_bind]. eexists. split; [reflexivity|]. split; [done|].
  unfold key_secret. cbn [k_orig]. unfold raw_query.
  assert (∀ c, safe_path (byteZ c) = false → lacks c (bare_path uuid)) as HP by (intros c Hc; eapply all_lacks_of; [apply path_safe|done]).
  assert (∀ c, safe_query (byteZ c) = false → lacks c (QueryEscape key)) as HQ by (intros c Hc; eapply all_lacks_of; [apply query_safe|done]).
  rewrite (cut_none (Zbyte 35)).
  2: { rewrite coerce_shape, !lacks_app. split; [cbn; repeat split; discriminate|]. split; [cbn; repeat split; discriminate|]. split; [by apply HP|]. split; [discriminate|].
       rewrite lacks_app. split; [cbn; repeat split; discriminate|by apply HQ]. }
  cbn [fst]. rewrite coerce_shape, getscheme_otp. rewrite <-sapp_assoc, cut_at by (rewrite lacks_app; split; [cbn; repeat split; discriminate|by apply HP]).
  cbn [snd default]. apply coerce_query.
Qed.
Lemma coerce_ok uuid key : otp_uri_ok (otp_coerce uuid key) = true.
Proof. unfold otp_uri_ok. rewrite dark_trim by apply coerce_dark. rewrite coerce_parse. done. Qed.
