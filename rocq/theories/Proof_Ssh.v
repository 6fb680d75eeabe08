(** Urls of sync entries, dialling, and what is given to a host. *)
From Verif Require Import Proof_Repl4 Spec_Repl.
From Verif Require Import Spec_Ssh Proof_GoStr Proof_Url Proof_Hosts Proof_Scp.
From Coq Require Import Lia.
From stdpp Require Import options.
Import Model_GoStr Model_Ssh.
#[local] Open Scope Z_scope.

(** ** Other urls *)

Lemma parse_file r : Parse (file_url (String (Zbyte 47) r)) = Some (mk_url "file" "" None "" (String (Zbyte 47) r)).
Proof.
  set (p := String (Zbyte 47) r).
  assert (∃ t, escaped_path p = String (Zbyte 47) t) as [t Ht].
  { unfold escaped_path. destruct (String.eqb_spec p "*") as [E|_]; [by unfold p in E; discriminate E|].
    exists (escape encodePath r). reflexivity. }
  assert (file_url p = "file:" +:+ "//" +:+ escaped_path p) as ->.
  { unfold file_url, url_string. cbn [u_scheme u_opaque u_user u_host u_path]. cbv zeta. rewrite Ht. reflexivity. }
  pose proof (path_good p) as Hg. rewrite Ht in *.
  refine (parse_after "file" ("file:" +:+ "//" +:+ String (Zbyte 47) t) (String (Zbyte 47) t) "" None "" (String (Zbyte 47) t) (Some t) p eq_refl eq_refl _ Hg _ Hg _ eq_refl eq_refl _); [done|done|done|].
  rewrite <-Ht. apply path_back.
Qed.

(** A sign before the port *)
Lemma host_none_port s sign port :
  (sign = Zbyte 43 ∨ sign = Zbyte 45) → each digit port → parseHost (escape encodeHost (JoinHostPort s (String sign port))) = None.
Proof.
  intros Hs Hp.
  assert (∀ x, validOptionalPort (x +:+ String (Zbyte 58) (String sign port)) = false) as Hbad.
  { intros x. destruct x as [|c x].
    - cbn. destruct Hs as [-> | ->]; reflexivity.
    - change (String c x +:+ String (Zbyte 58) (String sign port)) with (String c (x +:+ String (Zbyte 58) (String sign port))).
      cbn [validOptionalPort]. rewrite all_app. change (all_bytes (inr 48 57) (String (Zbyte 58) (String sign port))) with false.
      by rewrite !andb_false_r. }
  assert (escape encodeHost (String sign port) = String sign port) as Hsp.
  { cbn [escape]. rewrite escape_digits by auto. by destruct Hs as [-> | ->]. }
  assert (lacks (Zbyte 93) (String (Zbyte 58) (String sign port))) as Hl.
  { split; [done|]. split; [by destruct Hs as [-> | ->]|]. apply digits_lack; [done|by apply (digit_not 93); [lia..|]]. }
  assert (lacks (Zbyte 58) (String sign port)) as Hl2.
  { split; [by destruct Hs as [-> | ->]|]. apply digits_lack; [done|by apply (digit_not 58); [lia..|]]. }
  destruct (lacks_dec (Zbyte 58) s) as [Hc|Hc].
  - rewrite JoinHostPort_name by done. rewrite escape_app.
    change (escape encodeHost (String (Zbyte 58) (String sign port))) with (String (Zbyte 58) (escape encodeHost (String sign port))). rewrite Hsp.
    unfold parseHost. destruct (first_is 91 _).
    + destruct (cut_last (Zbyte 93) _) as [[a b]|] eqn:E; [|done].
      assert (∃ x, b = x +:+ String (Zbyte 58) (String sign port)) as [x ->].
      { clear -E Hl. revert a b E. generalize (String (Zbyte 58) (String sign port)) as p, Hl. intros p Hl'.
        induction (escape encodeHost s) as [|c e IH]; intros a b.
        - change ("" +:+ p) with p. by rewrite cut_last_none.
        - change (String c e +:+ p) with (String c (e +:+ p)). cbn [cut_last].
          destruct (cut_last (Zbyte 93) (e +:+ p)) as [[x y]|]; [intros [= <- <-]; by apply (IH x)|].
          destruct (Ascii.eqb c _); [|done]. intros [= <- <-]. by exists e. }
      by rewrite Hbad.
    + rewrite cut_last_at by done. pose proof (Hbad "") as Hb0. change ("" +:+ String (Zbyte 58) (String sign port)) with (String (Zbyte 58) (String sign port)) in Hb0. by rewrite Hb0.
  - rewrite JoinHostPort_address by done. cbn [escape]. change (shouldEscape (Zbyte 91) encodeHost) with false. cbv iota.
    rewrite escape_app. change (escape encodeHost (String (Zbyte 93) (String (Zbyte 58) (String sign port))))
      with (String (Zbyte 93) (String (Zbyte 58) (escape encodeHost (String sign port)))). rewrite Hsp.
    unfold parseHost. cbn [first_is]. rewrite (byteZ_Zbyte 91) by lia. change (91 =? 91) with true. cbv iota.
    change (String (Zbyte 91) (escape encodeHost s +:+ String (Zbyte 93) (String (Zbyte 58) (String sign port))))
      with (String (Zbyte 91) (escape encodeHost s) +:+ String (Zbyte 93) (String (Zbyte 58) (String sign port))).
    rewrite cut_last_at by done. pose proof (Hbad "") as Hb0. change ("" +:+ String (Zbyte 58) (String sign port)) with (String (Zbyte 58) (String sign port)) in Hb0. by rewrite Hb0.
Qed.

(** A byte that no host has *)
Lemma host_none_byte s t : ¬ each (λ c, any_host c ∨ c = Zbyte 37) s → unescape encodeHost (escape encodeHost s +:+ t) = None.
Proof.
  induction s as [|c s IH]; [intros []; done|]. intros H. cbn [escape].
  destruct (shouldEscape c encodeHost) eqn:E.
  - change (percent c (escape encodeHost s) +:+ t) with (percent c (escape encodeHost s +:+ t)).
    rewrite unescape_percent. rewrite bool_decide_eq_true_2 by done. rewrite (bool_decide_eq_false_2 (encodeHost = encodeZone)) by done. cbn [andb].
    destruct (Z.ltb_spec (byteZ c / 16) 8) as [Hlt|Hge]; cbn [andb].
    + destruct (Z.eqb_spec (byteZ c) 37) as [E37|_]; [|done]. cbn [negb].
      rewrite IH; [done|]. intros X. apply H. split; [right; by apply percent_char|done].
    + rewrite IH; [done|]. intros X. apply H. split; [|done]. left. right. pose proof (Z.mul_div_le (byteZ c) 16). lia.
  - change (String c (escape encodeHost s) +:+ t) with (String c (escape encodeHost s +:+ t)).
    rewrite unescape_plain by done. rewrite IH; [done|]. intros X. apply H. split; [|done]. left. left.
    assert (host_b c = true) as Hb.
    { enough (negb (shouldEscape c encodeHost) && negb (host_b c) = false) as Y.
      { rewrite E in Y. by apply negb_false_iff in Y. }
      clear. bytes_of c; by vm_compute. }
    unfold host_b, inr in Hb. rewrite !orb_true_iff, !andb_true_iff, !Z.leb_le, bool_decide_eq_true in Hb.
    unfold ascii_host, digit, letter, one_of. tauto.
Qed.
Lemma host_none_name h port :
  lacks (Zbyte 58) h → ¬ (∃ r, h = String (Zbyte 91) r) → ¬ each (λ c, any_host c ∨ c = Zbyte 37) h → each digit port →
  parseHost (escape encodeHost (JoinHostPort h port)) = None.
Proof.
  intros Hl Hb He Hp. rewrite JoinHostPort_name by done. rewrite escape_app, (escape_colon _ Hp). unfold parseHost.
  assert (first_is 91 (escape encodeHost h +:+ String (Zbyte 58) port) = false) as ->.
  { destruct h as [|c h]; [done|]. cbn [escape]. destruct (shouldEscape c encodeHost); [done|].
    change ((byteZ c =? 91) = false). apply Z.eqb_neq. intros E. apply Hb. exists h. f_equal. by rewrite <-(Zbyte_byteZ c), E. }
  rewrite cut_last_at by (apply digits_lack; [done|by apply (digit_not 58); [lia..|]]).
  rewrite valid_port by done. cbn [negb]. by apply host_none_byte.
Qed.

Lemma parse_none user h port file pass :
  parseHost (escape encodeHost (JoinHostPort h port)) = None → Parse (scp_url user h port file pass) = None.
Proof.
  intros Hn. rewrite scp_url_text.
  set (auth := user_string (user, pass) +:+ "@" +:+ escape encodeHost (JoinHostPort h port)).
  set (sl := if negb (String.eqb (escaped_path file) "") && negb (first_is 47 (escaped_path file)) then "/" else "").
  assert (lacks (Zbyte 47) auth) as Hl.
  { unfold auth. rewrite !lacks_app. split; [apply user_slash|]. split; [by split|by apply escape_lacks]. }
  assert (all_bytes good_byte (auth +:+ sl +:+ escaped_path file) = true) as Hg.
  { unfold auth. rewrite !all_app, user_good, path_good, escape_good by done. unfold sl. by destruct (_ && _). }
  assert (∃ tail, cut (Zbyte 47) (auth +:+ sl +:+ escaped_path file) = (auth, tail)) as [tail Hcut].
  { assert (sl +:+ escaped_path file = "" ∨ ∃ t, sl +:+ escaped_path file = String (Zbyte 47) t) as [-> |[t ->]].
    - unfold sl. destruct (escaped_path file) as [|c r] eqn:E; [by left|]. right.
      change (String.eqb (String c r) "") with false. cbn [negb andb first_is].
      destruct (Z.eqb_spec (byteZ c) 47) as [X|_]; [|by eexists].
      assert (c = Zbyte 47) as -> by (by rewrite <-(Zbyte_byteZ c), X). by eexists.
    - rewrite sapp_nil. eexists. by apply cut_none.
    - eexists. by apply cut_at. }
  assert (parseAuthority auth = None) as Ha.
  { unfold parseAuthority, auth.
    change ("@" +:+ escape encodeHost (JoinHostPort h port)) with (String (Zbyte 64) (escape encodeHost (JoinHostPort h port))).
    rewrite cut_last_at by (by apply escape_lacks). by rewrite Hn. }
  set (x := auth +:+ sl +:+ escaped_path file) in *. clearbody x. unfold Parse.
  rewrite (cut_none (Zbyte 35) ("scp:" +:+ "//" +:+ x)).
  2: { apply good_lacks; [|by left]. exact Hg. }
  assert (parse ("scp:" +:+ "//" +:+ x) = None) as ->; [|done].
  unfold parse. rewrite good_ctl by exact Hg.
  assert (String.eqb ("scp:" +:+ "//" +:+ x) "*" = false) as -> by done.
  change (getscheme ("scp:" +:+ "//" +:+ x)) with (Some ("scp", String (Zbyte 47) (String (Zbyte 47) x))).
  cbn [mbind option_bind]. cbv zeta. change (lower_ascii "scp") with "scp".
  rewrite (cut_none (Zbyte 63) (String (Zbyte 47) (String (Zbyte 47) x))).
  2: { split; [done|]. split; [done|]. apply good_lacks; [done|by right]. }
  cbn [fst first_is]. rewrite (byteZ_Zbyte 47) by lia. change (47 =? 47) with true. change (String.eqb "scp" "") with false. cbn [negb andb orb].
  rewrite Hcut, Ha. done.
Qed.

(** ** sshConfig *)

Lemma slashed_drop file : file ≠ "" → str_drop 1 (slashed file) = Ok (relative file).
Proof. destruct file as [|c r]; [done|]. intros _. cbn. destruct (byteZ c =? 47); by destruct r. Qed.

Lemma config_ok key_err b user h port file pass :
  usable_host h → each digit port → user ≠ "" → relative file ≠ "" →
  key_of_entry b "url" = scp_url user h port file pass →
  (key_of_entry b "privkey" = "" ∨ key_err (key_of_entry b "privkey") = None) →
  sshConfig key_err b =
  Ok (mk_target (JoinHostPort h port) (relative file) user (p ← pass; non_empty p) (non_empty (key_of_entry b "privkey"))).
Proof.
  intros Hh Hp Hu Hf Hurl Hk. unfold sshConfig. change KeyURL with "url". change KeyPriv with "privkey". rewrite Hurl. rewrite parse_scp by done. cbn [u_host u_path].
  rewrite splitHostPort_back by done. rewrite slashed_drop by (by intros ->). cbn [mbind outcome_bind].
  unfold uri_user, uri_pass. cbn [u_user].
  destruct (String.eqb_spec user "") as [|_]; [done|].
  destruct (String.eqb_spec h "") as [->|_].
  { exfalso. inversion Hh as [? Hn|? Hn|a z Hn]; [done|by apply Hn|]. by destruct a. }
  destruct (String.eqb_spec (relative file) "") as [|_]; [done|].
  assert ((p ← pass; non_empty p) = non_empty match pass with Some p => p | None => "" end) as -> by (by destruct pass).
  destruct (String.eqb_spec (key_of_entry b "privkey") "") as [E|E]; [done|]. destruct Hk as [Hk|Hk]; [done|].
  by rewrite Hk.
Qed.

Lemma config_crash key_err b :
  sshConfig key_err b = Panic ↔ ∃ uri, Parse (key_of_entry b "url") = Some uri ∧ u_path uri = "".
Proof.
  unfold sshConfig. change KeyURL with "url". split.
  - destruct (Parse (key_of_entry b "url")) as [uri|] eqn:E; [|done]. intros H. exists uri. split; [done|].
    destruct (splitHostPort (u_host uri)) as [host port]. destruct (u_path uri) as [|c r]; [done|].
    assert (str_drop 1 (String c r) = Ok r) as Hd by (by destruct r). rewrite Hd in H. cbn [mbind outcome_bind] in H.
    destruct (String.eqb _ _); [done|]. destruct (String.eqb host _); [done|]. destruct (String.eqb r _); [done|].
    destruct (String.eqb _ _); [done|]. by destruct (key_err _).
  - intros (uri & E & Hp). rewrite E. destruct (splitHostPort (u_host uri)) as [host port]. by rewrite Hp.
Qed.

(** ** Dialling *)

Lemma callback_trusted known hn addr ty hash inp nh rest :
  host_callback known hn addr ty hash inp = UOk nh rest →
  trusted known hn ty hash inp ∧
  ((nh = None ∧ rest = inp ∧ ∃ l, first_for known hn l ∧ same_key hn ty hash l) ∨
   (nh = Some (hostLine hn addr ty hash) ∧ unknown_host known hn ∧ ∃ line, inp = ILine line :: rest ∧ (line = "y" ∨ line = "Y"))).
Proof.
  intros H. destruct (host_cases known hn ty hash) as [(l & Hf & [Hs|[Ho|Hn]])|Hu].
  - rewrite (same_accepted _ _ addr _ _ inp l Hf Hs) in H. injection H as <- <-. split; [left; eauto|left; eauto 6].
  - destruct (other_refused known hn addr ty hash inp l Hf Ho) as [e E]. by rewrite E in H.
  - by rewrite (short_panics known hn addr ty hash inp l Hf Hn) in H.
  - rewrite unknown_asks in H by done. destruct inp as [|[s|e] r]; [done| |done].
    destruct (String.eqb_spec s "y") as [->|Hy]; cbn [orb] in H.
    + injection H as <- <-. split; [right; eauto 8|right; eauto 8].
    + destruct (String.eqb_spec s "Y") as [->|HY]; [|done]. injection H as <- <-. split; [right; eauto 8|right; eauto 8].
Qed.

Lemma dialling_events {A} known t d inp (failed : error → A) rest ev :
  (dialling known t d inp failed rest).1 = ev → ev ≠ [] →
  ∃ addr ty hash chan, d = Dialled addr ty hash chan ∧ trusted known (t_address t) ty hash inp ∧
    ∀ ty' hash' u p k, Secrets ty' hash' u p k ∈ ev →
      (ty' = ty ∧ hash' = hash ∧ u = t_user t ∧ p = t_pass t ∧ k = t_key t) ∨ ∃ ev' a, rest chan = Ok (ev', a) ∧ Secrets ty' hash' u p k ∈ ev'.
Proof.
  unfold dialling. destruct d as [e|addr ty hash chan]; [by intros <-|].
  destruct (host_callback known (t_address t) addr ty hash inp) as [nh r|e r| |] eqn:E; try (by intros <-).
  apply callback_trusted in E as [Ht _]. intros <- _. exists addr, ty, hash, chan. split; [done|]. split; [done|].
  intros ty' hash' u p k Hin. destruct (rest chan) as [[ev' a]|e|]; cbn [fst] in Hin.
  - apply elem_of_cons in Hin as [[= -> -> -> -> ->]|Hin]; [by left|]. right. eauto.
  - apply elem_of_list_singleton in Hin as [= -> -> -> -> ->]. by left.
  - apply elem_of_list_singleton in Hin as [= -> -> -> -> ->]. by left.
Qed.

Lemma pull_trusted h i b inp : given_to_trusted h false i b inp (sshPull h i b inp).1.
Proof.
  unfold sshPull. destruct (sshConfig (h_key h) b) as [t|e|] eqn:Ec; [|by left..].
  unfold dialling. destruct (h_dial h false i t) as [e|addr ty hash chan] eqn:Ed; [by left|].
  destruct (host_callback _ _ _ _ _ _) as [nh r|e r| |] eqn:E; try (by left).
  apply callback_trusted in E as [Ht _]. right. exists t, addr, ty, hash, chan. split; [done|]. split; [done|]. split; [done|].
  assert (∀ ev rc, Recv (h_lower h) (t_path t) (chan ("scp -qf " +:+ t_path t)) = Ok (ev, rc) →
    ∀ x, x ∈ ev → x = Sent ("scp -qf " +:+ t_path t) "") as HR.
  { intros ev rc. unfold Recv. destruct (c_start _); [intros [= <- <-]; by intros x ?%elem_of_nil|].
    destruct (readFile _ _).2 as [f|?|?|]; [|intros [= <- <-]; by intros x ->%elem_of_list_singleton..|done].
    destruct (c_end _); intros [= <- <-]; by intros x ->%elem_of_list_singleton. }
  intros e. destruct (Recv _ _ _) as [[ev [cs|[] er]]|er|]; cbn [fst]; intros Hin;
    (apply elem_of_cons in Hin as [->|Hin]; [done|]); first [by apply elem_of_nil in Hin|idtac];
    by rewrite (HR _ _ eq_refl e Hin).
Qed.

Lemma push_trusted h i b payload inp : given_to_trusted h true i b inp (sshPush h i b payload inp).1.
Proof.
  unfold sshPush. destruct (sshConfig (h_key h) b) as [t|e|] eqn:Ec; [|by left..].
  unfold dialling. destruct (h_dial h true i t) as [e|addr ty hash chan] eqn:Ed; [by left|].
  destruct (host_callback _ _ _ _ _ _) as [nh r|e r| |] eqn:E; try (by left).
  apply callback_trusted in E as [Ht _]. right. exists t, addr, ty, hash, chan. split; [done|]. split; [done|]. split; [done|].
  assert (∀ x, x ∈ (Send (t_path t) 384 (bytes_string payload) (chan ("scp -qt " +:+ t_path t))).1 → ∃ y, x = Sent ("scp -qt " +:+ t_path t) y) as HS.
  { intros x. unfold Send. destruct (c_start _); [by intros ?%elem_of_nil|]. destruct (negb _); [intros ->%elem_of_list_singleton; eauto|].
    destruct (_.2); intros ->%elem_of_list_singleton; eauto. }
  intros e. destruct (Send _ _ _ _) as [ev a] eqn:Es; cbn [fst]; intros Hin.
  apply elem_of_cons in Hin as [->|Hin]; [done|]. destruct (HS e Hin) as [y ->]. done.
Qed.

(** What is pulled is what the server's scp sent. *)
Lemma pull_exact h i b inp host ct rest :
  (sshPull h i b inp).2 = UOk (host, Pulled ct) rest →
  ∃ t addr ty hash chan hdr contents more,
    sshConfig (h_key h) b = Ok t ∧ h_dial h false i t = Dialled addr ty hash chan ∧
    c_out (chan ("scp -qf " +:+ t_path t)) = "C" +:+ hdr +:+ newline +:+ contents +:+ String nul_byte more ∧
    ct = slice_of (str_bytes contents).
Proof.
  unfold sshPull. destruct (sshConfig (h_key h) b) as [t|e|] eqn:Ec; [|done..].
  unfold dialling. destruct (h_dial h false i t) as [e|addr ty hash chan] eqn:Ed; [done|].
  destruct (host_callback _ _ _ _ _ _) as [nh r|e r| |] eqn:E; [|done..].
  destruct (Recv _ _ _) as [[ev [cs|[] er]]|er|] eqn:Er; [|done..]. cbn [snd]. intros [= <- <- <-].
  assert (∃ n f, readFile (c_w (chan ("scp -qf " +:+ t_path t))) (c_out (chan ("scp -qf " +:+ t_path t))) = (n, Done f) ∧ f_contents f = cs) as (n & f & Hr & <-).
  { unfold Recv in Er. destruct (c_start _); [by destruct (c_close _)|].
    destruct (readFile _ _) as [n [f|?|?|]]; cbn [snd] in Er; [|by destruct (c_close _)..|done].
    destruct (c_end _); destruct (c_close _); try discriminate Er. injection Er as _ <-. eauto. }
  apply read_done in Hr as (hdr & more & Hs & _). exists t, addr, ty, hash, chan, hdr, (f_contents f), more. done.
Qed.

(** The line for a new host *)
Lemma pull_host h i b inp host got rest :
  (sshPull h i b inp).2 = UOk (host, got) rest → host ≠ "" →
  ∃ t addr ty hash chan line, sshConfig (h_key h) b = Ok t ∧ h_dial h false i t = Dialled addr ty hash chan ∧
    unknown_host (key_of_entry b "knownhosts") (t_address t) ∧ inp = ILine line :: rest ∧ (line = "y" ∨ line = "Y") ∧
    host = hostLine (t_address t) addr ty hash.
Proof.
  unfold sshPull. destruct (sshConfig (h_key h) b) as [t|e|] eqn:Ec; [|by intros [= <- <- <-]|done].
  unfold dialling. destruct (h_dial h false i t) as [e|addr ty hash chan] eqn:Ed; [by intros [= <- <- <-]|].
  destruct (host_callback _ _ _ _ _ _) as [nh r|e r| |] eqn:E; [|by intros [= <- <- <-]|done..].
  apply callback_trusted in E as [_ H]. intros Hr Hne.
  assert (host = default "" nh ∧ rest = r) as [-> ->].
  { destruct (Recv _ _ _) as [[ev [cs|[] er]]|er|]; cbn [snd] in Hr; try done; by injection Hr as <- <- <-. }
  destruct H as [(-> & _)|(-> & Hu & line & -> & Hl)]; [done|]. exists t, addr, ty, hash, chan, line. eauto 10.
Qed.

(** ** Pushing *)

Lemma sent_same filename mode contents r : (sendFile filename (Z.of_nat (String.length contents)) mode contents r).1 = (sendFile filename (Z.of_nat (String.length contents)) mode contents None).1.
Proof. unfold sendFile. by rewrite Z.eqb_refl. Qed.

Lemma push_exact h i b payload inp host rest :
  (sshPush h i b payload inp).2 = UOk (host, None) rest →
  ∃ t addr ty hash chan sent r,
    sshConfig (h_key h) b = Ok t ∧ h_dial h true i t = Dialled addr ty hash chan ∧
    Sent ("scp -qt " +:+ t_path t) sent ∈ (sshPush h i b payload inp).1 ∧
    (bad_name (Base (t_path t)) = false → lacks (Zbyte 10) (Base (t_path t)) →
      sink sent = Some (384, Base (t_path t), bytes_string payload)) ∧
    c_answer (chan ("scp -qt " +:+ t_path t)) sent = Some (String nul_byte r).
Proof.
  unfold sshPush. destruct (sshConfig (h_key h) b) as [t|e|] eqn:Ec; [|done..].
  unfold dialling. destruct (h_dial h true i t) as [e|addr ty hash chan] eqn:Ed; [done|].
  destruct (host_callback _ _ _ _ _ _) as [nh r|e r| |] eqn:E; [|done..].
  set (c := chan ("scp -qt " +:+ t_path t)). set (p := bytes_string payload).
  destruct (Send (t_path t) 384 p c) as [ev a] eqn:Es. cbn [fst snd]. intros Hr.
  assert (a = None) as -> by (destruct a; [done|done]).
  unfold Send in Es. destruct (c_start c); [by destruct (c_close c)|].
  set (sent := (sendFile (t_path t) (Z.of_nat (String.length p)) 384 p None).1) in *.
  destruct (negb (c_written c)); [by destruct (c_close c)|].
  destruct (sendFile (t_path t) (Z.of_nat (String.length p)) 384 p (c_answer c sent)).2 as [[]|?|?|] eqn:Ea; [|by destruct (c_close c)..].
  injection Es as <- Hcl.
  pose proof (send_sink (t_path t) 384 p (c_answer c sent)) as Hsk.
  assert (∃ q, c_answer c sent = Some (String nul_byte q)) as [q Hq].
  { unfold sendFile in Ea. rewrite Z.eqb_refl in Ea. cbn [negb snd] in Ea. destruct (c_answer c sent) as [[|x q]|]; [done| |done].
    cbn [readResponse] in Ea. destruct (Z.eqb_spec (byteZ x) 0) as [X|_]; [|by destruct (_ || _)].
    exists q. do 2 f_equal. rewrite <-(Zbyte_byteZ x), X. done. }
  exists t, addr, ty, hash, chan, sent, q. split; [done|]. split; [done|]. split; [right; left|]. split; [|done].
  intros H1 H2. specialize (Hsk ltac:(lia) H1 H2). destruct (sendFile _ _ _ _ (c_answer c sent)) as [s2 res] eqn:E2.
  destruct Hsk as [Hsk _]. change (Some (384, Base (t_path t), p)) with (Some (Z.of_nat 384, Base (t_path t), p)). rewrite <-Hsk. f_equal. unfold sent. pose proof (sent_same (t_path t) 384 p (c_answer c sent)) as X. by rewrite E2 in X.
Qed.

Lemma push_host h i b payload inp host res rest :
  (sshPush h i b payload inp).2 = UOk (host, res) rest → host ≠ "" →
  res = None ∧ ∃ t addr ty hash chan line, sshConfig (h_key h) b = Ok t ∧ h_dial h true i t = Dialled addr ty hash chan ∧
    unknown_host (key_of_entry b "knownhosts") (t_address t) ∧ inp = ILine line :: rest ∧ (line = "y" ∨ line = "Y") ∧
    host = hostLine (t_address t) addr ty hash.
Proof.
  unfold sshPush. destruct (sshConfig (h_key h) b) as [t|e|] eqn:Ec; [|by intros [= <- <- <-]|done].
  unfold dialling. destruct (h_dial h true i t) as [e|addr ty hash chan] eqn:Ed; [by intros [= <- <- <-]|].
  destruct (host_callback _ _ _ _ _ _) as [nh r|e r| |] eqn:E; [|by intros [= <- <- <-]|done..].
  apply callback_trusted in E as [_ H]. destruct (Send _ _ _ _) as [ev [a|]]; cbn [snd drop_host]; intros Hr Hne.
  - by injection Hr as <- <- <-.
  - injection Hr as <- <- <-. split; [done|].
    destruct H as [(-> & _)|(-> & Hu & line & -> & Hl)]; [done|]. exists t, addr, ty, hash, chan, line. eauto 10.
Qed.

(** ** A server that keeps the file *)

Section server.
  Context (h : ssh_world) (i : nat) (b : entry) (inp rest : list input) (t : target) (addr ty hash : string) (nh : option string) (mode : nat).
  Hypothesis (Hc : sshConfig (h_key h) b = Ok t).
  Hypothesis (Ht : host_callback (key_of_entry b "knownhosts") (t_address t) addr ty hash inp = UOk nh rest).

  Lemma server_pull contents :
    h_dial h false i t = Dialled addr ty hash (scp_server mode (t_path t) (Some contents)) →
    (mode < 4096)%nat → plain_name (Base (t_path t)) → Z.of_nat (String.length contents) < 2 ^ 31 →
    (sshPull h i b inp).2 = UOk (default "" nh, Pulled (slice_of (str_bytes contents))) rest.
  Proof using Hc Ht.
    intros Hd Hm Hn Hl. unfold sshPull. rewrite Hc. unfold dialling. rewrite Hd. change KeyKnownHosts with "knownhosts". rewrite Ht.
    unfold Recv. cbn [scp_server c_start c_w c_out c_end c_close].
    pose proof (read_source (λ _, true) (λ _, eq_refl) mode (Base (t_path t)) contents "" Hm Hn Hl) as H. rewrite sapp_nil in H. by rewrite H.
  Qed.

  Lemma server_missing :
    h_dial h false i t = Dialled addr ty hash (scp_server mode (t_path t) None) →
    lacks (Zbyte 10) (t_path t) →
    contains_str (h_lower h ("scp: " +:+ (t_path t +:+ ": No such file or directory") +:+ newline)) "no such file or directory" = true →
    (sshPull h i b inp).2 = UOk (default "" nh, NotFound) rest.
  Proof using Hc Ht.
    intros Hd Hn Hl. unfold sshPull. rewrite Hc. unfold dialling. rewrite Hd. change KeyKnownHosts with "knownhosts". rewrite Ht.
    unfold Recv. cbn [scp_server c_start c_w c_out c_end c_close].
    pose proof (read_complaint (λ _, true) (λ _, eq_refl) (t_path t +:+ ": No such file or directory") "") as H.
    rewrite sapp_nil in H. rewrite H.
    2: { apply lacks_app. split; [done|]. cbn. repeat split; discriminate. }
    match goal with |- context [(1%nat, ?e)] => assert (IsNotFoundErr (h_lower h) (e : scp scpFile) = true) as Hf end.
    { unfold IsNotFoundErr. exact Hl. }
    set (msg := "scp: " +:+ _ +:+ newline) in *. clearbody msg. cbn [snd]. by rewrite Hf.
  Qed.

  Lemma server_push payload file :
    h_dial h true i t = Dialled addr ty hash (scp_server mode (t_path t) file) →
    bad_name (Base (t_path t)) = false → lacks (Zbyte 10) (Base (t_path t)) →
    ∃ sent, sshPush h i b payload inp =
      ([Secrets ty hash (t_user t) (t_pass t) (t_key t); Sent ("scp -qt " +:+ t_path t) sent], UOk (default "" nh, None) rest) ∧
      keeps_sent sent file = Some (bytes_string payload).
  Proof using Hc Ht.
    intros Hd Hb Hn. unfold sshPush. rewrite Hc. unfold dialling. rewrite Hd. change KeyKnownHosts with "knownhosts". rewrite Ht.
    unfold Send. cbn [scp_server c_start c_w c_out c_end c_close c_written c_answer negb].
    set (p := bytes_string payload). set (sent := (sendFile (t_path t) (Z.of_nat (String.length p)) 384 p None).1).
    exists sent. pose proof (send_sink (t_path t) 384 p (Some (String nul_byte "")) ltac:(lia) Hb Hn) as H.
    pose proof (sent_same (t_path t) 384 p (Some (String nul_byte ""))) as X. fold sent in X.
    destruct (sendFile _ _ _ _ (Some _)) as [s2 res]. cbn [fst snd] in *. destruct H as [H1 H2]. subst s2 res.
    split; [done|]. unfold keeps_sent. by rewrite H1.
  Qed.
End server.

Lemma string_bytes l : str_bytes (bytes_string l) = l.
Proof. apply list_ascii_of_string_of_list_ascii. Qed.
Lemma length_bytes_string l : String.length (bytes_string l) = length l.
Proof. induction l as [|c l IH]; [done|]. cbn. f_equal. exact IH. Qed.
Lemma round_trip h i b inp rest t addr ty hash nh mode payload file j inp' rest' nh' :
  sshConfig (h_key h) b = Ok t →
  host_callback (key_of_entry b "knownhosts") (t_address t) addr ty hash inp = UOk nh rest →
  host_callback (key_of_entry b "knownhosts") (t_address t) addr ty hash inp' = UOk nh' rest' →
  plain_name (Base (t_path t)) → bad_name (Base (t_path t)) = false → (mode < 4096)%nat → Z.of_nat (length payload) < 2 ^ 31 →
  h_dial h true i t = Dialled addr ty hash (scp_server mode (t_path t) file) →
  ∃ ev sent, sshPush h i b payload inp = (ev, UOk (default "" nh, None) rest) ∧ Sent ("scp -qt " +:+ t_path t) sent ∈ ev ∧
    (h_dial h false j t = Dialled addr ty hash (scp_server mode (t_path t) (keeps_sent sent file)) →
     (sshPull h j b inp').2 = UOk (default "" nh', Pulled (slice_of payload)) rest').
Proof.
  intros Hc H1 H2 Hn Hb Hm Hl Hd.
  destruct (server_push h i b inp rest t addr ty hash nh mode Hc H1 payload file Hd Hb) as (sent & E & Hk).
  { apply (name_lacks _ _ Hn); [done|done]. }
  eexists _, sent. split; [exact E|]. split; [right; left|]. rewrite Hk. intros Hd'.
  rewrite <-(string_bytes payload). apply (server_pull h j b inp' rest' t addr ty hash nh' mode Hc H2 _ Hd' Hm Hn).
  rewrite length_bytes_string. done.
Qed.

(** ** The command on the other side *)

Lemma plain_not c : plain_byte c → (byteZ c =? 32) = false ∧ (byteZ c =? 59) = false.
Proof.
  intros H. assert (byteZ c ≠ 32 ∧ byteZ c ≠ 59) as [H1 H2]; [|by split; apply Z.eqb_neq].
  destruct H as [H|[H|H]]; [unfold digit in H; lia|unfold letter in H; lia|].
  unfold one_of in H. split; intros E; (assert (c = Zbyte (byteZ c)) as X by (symmetry; apply Zbyte_byteZ)); rewrite E in X; subst c;
    apply (bool_decide_eq_true_2 _) in H; by vm_compute in H.
Qed.
Lemma shell_plain path : ∀ word words, each plain_byte path → word +:+ path ≠ "" → shell_from word words path = [words ++ [word +:+ path]].
Proof.
  induction path as [|c r IH]; intros word words.
  - rewrite sapp_nil. intros _ Hne. cbn. by destruct (String.eqb_spec word "").
  - cbn [each]. intros [Hc Hr] Hne. cbn [shell_from]. destruct (plain_not c Hc) as [-> ->].
    rewrite IH; [|done|]; rewrite sapp_assoc; [done|]. intros E. by destruct word.
Qed.
Lemma shell_command push path : each plain_byte path → path ≠ "" →
  shell ((if push : bool then "scp -qt " else "scp -qf ") +:+ path) = [["scp"; if push then "-qt" else "-qf"; path]].
Proof.
  intros H Hne. destruct push.
  - change (shell ("scp -qt " +:+ path)) with (shell_from "" ["scp"; "-qt"] path). by rewrite shell_plain.
  - change (shell ("scp -qf " +:+ path)) with (shell_from "" ["scp"; "-qf"] path). by rewrite shell_plain.
Qed.

(** ** The port that was typed *)
Lemma port_typed inp port rest : askPort inp = UOk port rest → each digit port ∨ ∃ sign ds, port = String sign ds ∧ (sign = Zbyte 43 ∨ sign = Zbyte 45) ∧ each digit ds.
Proof.
  assert (∀ s acc v, parse_digits acc s = Some v → each digit s) as Hd.
  { induction s as [|c s IH]; intros acc v; [done|]. cbn [parse_digits each]. destruct (digit_val c) as [x|] eqn:E; [|done].
    intros H. split; [|by eapply IH]. unfold digit_val in E. unfold digit. destruct (_ && _) eqn:X; [|done].
    apply andb_true_iff in X as [X1%Z.leb_le X2%Z.leb_le]. lia. }
  assert (∀ s z, ParseInt s = Ok z → each digit s ∨ ∃ sign ds, s = String sign ds ∧ (sign = Zbyte 43 ∨ sign = Zbyte 45) ∧ each digit ds) as HP.
  { intros s z. unfold ParseInt. intros H. destruct s as [|c r]; [done|].
    destruct (Z.eqb_spec (byteZ c) 45) as [E|E].
    - right. exists c, r. split; [done|]. split; [right; by rewrite <-(Zbyte_byteZ c), E|].
      destruct r as [|x y]; [done|]. destruct (parse_digits 0 (String x y)) as [n|] eqn:Ep; [by eapply Hd|done].
    - destruct (Z.eqb_spec (byteZ c) 43) as [E2|E2].
      + right. exists c, r. split; [done|]. split; [left; by rewrite <-(Zbyte_byteZ c), E2|].
        destruct r as [|x y]; [done|]. destruct (parse_digits 0 (String x y)) as [n|] eqn:Ep; [by eapply Hd|done].
      + left. destruct (parse_digits 0 (String c r)) as [n|] eqn:Ep; [by eapply Hd|done]. }
  induction inp as [|[s|e] r IH]; [done| |done]. cbn [askPort]. destruct (Nat.eqb_spec (String.length s) 0) as [H0|H0].
  - intros [= <- <-]. left. unfold digit. vm_compute. repeat split; discriminate.
  - unfold Atoi. destruct (ParseInt s) as [z|e|] eqn:E; [|exact IH..]. intros [= <- <-]. by eapply HP.
Qed.

(** ** addsync *)

Lemma added_target w s m inp rest user host port file pass keys key_err :
  (∀ u h p f pw, w_scp_url w u h p f pw = scp_url u h p f pw) →
  ready w s m → db_txpoint (s_db s) = 0%nat → unused (s_db s) (e_uuid (w_env w 0)) →
  scp_typed w inp user host port file pass keys rest →
  usable_host host → each digit port → relative file ≠ "" →
  (∀ priv pub, keys = Some (priv, pub) → priv ≠ "" → key_err priv = None) →
  ∃ name s' b, addSync w "scp" s inp = (s', UOk [Names [name]] rest) ∧ became s s' (<[e_uuid (w_env w 0) := b]> m) ∧
    sshConfig key_err b =
    Ok (mk_target (JoinHostPort host port) (relative file) user (p ← pass; non_empty p) (k ← keys; non_empty k.1)).
Proof.
  intros Hurl Hr Ht Hu (choice & r1 & r2 & r3 & r4 & r5 & A1 & A2 & A3 & A4 & A5 & A6) Hh Hp Hf Hk.
  destruct (addsync_ok w "scp" s m inp (scp_url user host port file pass) keys rest Hr Ht Hu) as (k & s' & b & E & _ & _ & Hb & He).
  { right. split; [done|]. exists user, host, port, file, choice, r1, r2, r3, r4, r5. do 5 (split; [done|]).
    destruct (decide (choice = 2)).
    - destruct A6 as (p & Ep & -> & ->). exists p. split; [done|]. split; [done|]. by rewrite Hurl.
    - destruct A6 as (-> & -> & ->). split; [done|]. split; [done|]. by rewrite Hurl. }
  eexists _, s', b. split; [exact E|]. split; [exact Hb|].
  assert (user ≠ "") as Hne.
  { clear -A1. induction inp as [|[x|e] r IH]; [done| |done]. cbn [getString] in A1.
    destruct (Nat.eqb_spec (String.length x) 0) as [|H0]; [by apply IH|]. injection A1 as <- <-. by intros ->. }
  assert (key_of_entry b "privkey" = match keys with Some (x, _) => x | None => "" end) as Hpk.
  { unfold key_of_entry. rewrite (He "privkey") by done. cbn. by destruct keys as [[x y]|]. }
  rewrite (config_ok key_err b user host port file pass Hh Hp Hne Hf).
  - rewrite Hpk. by destruct keys as [[x y]|].
  - unfold key_of_entry. by rewrite (He "url") by done.
  - rewrite Hpk. destruct keys as [[x y]|]; [|by left]. destruct (decide (x = "")) as [->|Hx]; [by left|]. right. by apply (Hk x y).
Qed.
