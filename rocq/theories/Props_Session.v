(** Properties C51-C54 and C56: opening and saving the file, users and
    passphrases, deleting entries, crashes. *)
From Verif Require Import Proof_TxLog Proof_GoStr Proof_Blobs Proof_Blobs2 Proof_Crypt7 Proof_SessionEx.
From Coq Require Import Lia.
From stdpp Require Import options.
Import Model_GoStr.
#[local] Open Scope nat_scope.

(** ** C51: what was saved is what is loaded *)

Theorem C51_single_partial : ∀ P s pass m e ord riv sp rsalt rest,
  prims_ok P → good (s_db s) m → s_readOnly s = false → single_session P s pass → length riv = 40 →
  ∃ f s2, saveBlob P e ord (Some riv) s = (s, Ok (Some f)) ∧
    loadBlob P (Found (mk_slice f sp)) None rsalt (ILine pass :: rest) = UOk s2 rest ∧
    same_store (s_db s) (s_db s2) ∧ good (s_db s2) m ∧ single_session P s2 pass ∧
    s_readOnly s2 = false ∧ s_created s2 = false ∧ s_user s2 = "" ∧ s_pass s2 = pass.
Proof. exact single_reopen. Qed.
Print Assumptions C51_single_partial.

(** Every user whose passphrase unlocks the master key gets in. *)
Theorem C51_multi_partial : ∀ P s x pass m e ord riv sp rsalt rest,
  prims_ok P → serves P s m → fair e → fair_results ord → s_readOnly s = false →
  unlocks P m (s_master s) x pass → (∀ b, riv = Some b → length b = 40) →
  ∃ f s' s2, saveBlob P e ord riv s = (s', Ok (Some f)) ∧ vis (db_log (s_db s')) = vis (db_log (s_db s)) ∧
    loadBlob P (Found (mk_slice f sp)) None rsalt (ILine x :: ILine pass :: rest) = UOk s2 rest ∧
    same_store (s_db s) (s_db s2) ∧ serves P s2 m ∧ s_master s2 = s_master s ∧ s_ivm s2 = s_ivm s ∧
    s_readOnly s2 = false ∧ s_created s2 = false ∧ s_user s2 = x ∧ s_pass s2 = pass ∧
    s_key s2 = key_of P (str_bytes pass) (s_salt s2) ∧ length (s_salt s2) = 32.
Proof. exact multi_reopen. Qed.
Print Assumptions C51_multi_partial.

(** A new file: created with a passphrase typed twice, it is an empty store that
    is saved and opened with that passphrase. *)
Theorem C51_created_partial : ∀ P pass rsalt rest, prims_ok P → pass ≠ "" → length rsalt = 32 →
  ∃ s, loadBlob P Absent None (Some rsalt) (ILine pass :: ILine pass :: rest) = UOk s rest ∧
    s_created s = true ∧ s_readOnly s = false ∧ single_session P s pass ∧ good (s_db s) ∅.
Proof.
  intros P pass rsalt rest HP Hp Hl. exists (mk_session true false 0 db_new "" "" (key_of P (str_bytes pass) rsalt) rsalt [] []).
  split; [|split; [done|split; [done|split; [by repeat split|]]]].
  - unfold loadBlob. rewrite prompt_line. cbn [ubind]. destruct pass as [|c pass]; [done|]. cbn [String.length Nat.eqb]. rewrite prompt_line. cbn [ubind].
    rewrite String.eqb_refl. cbn [negb]. rewrite DeriveKey_ok. done.
  - split; [split; [split; [cbn; lia|]|]; constructor|]. split; [done|]. split; [constructor|]. split; [constructor|]. done.
Qed.
Print Assumptions C51_created_partial.

(** A file is created only for a passphrase that is not empty and was typed twice. *)
Theorem C51_created_only : ∀ P hist rsalt inp s rest,
  loadBlob P Absent hist rsalt inp = UOk s rest → ∃ pass, inp = ILine pass :: ILine pass :: rest ∧ pass ≠ "".
Proof.
  intros P hist rsalt inp s rest. destruct inp as [|[pwd|e] inp]; [done| |done]. unfold loadBlob. rewrite prompt_line. cbn [ubind].
  destruct pwd as [|c pwd]; [done|]. cbn [String.length Nat.eqb]. destruct inp as [|[again|e] inp]; [done| |done]. rewrite prompt_line. cbn [ubind].
  destruct (String.eqb (String c pwd) again) eqn:E; [|done]. cbn [negb]. apply String.eqb_eq in E as <-. intros H. exists (String c pwd). split; [|done].
  do 2 f_equal. destruct (DeriveKey _ _ _ _ ≫= _) as [x| |]; [|done|done]. cbn [of_outcome] in H. by injection H as _ ->.
Qed.
Print Assumptions C51_created_only.
(** ... other passphrases are refused. *)
Theorem C51_created_refused : ∀ P hist rsalt pass again rest,
  loadBlob P Absent hist rsalt (ILine "" :: rest) = UErr (EMsg "cannot create a file with an empty password") rest ∧
  (pass ≠ "" → pass ≠ again → loadBlob P Absent hist rsalt (ILine pass :: ILine again :: rest) = UErr (EMsg "passphrases did not match") rest).
Proof.
  intros P hist rsalt pass again rest. split; [done|]. intros Hp Hn. unfold loadBlob. rewrite prompt_line. cbn [ubind]. destruct pass as [|c pass]; [done|].
  cbn [String.length Nat.eqb]. rewrite prompt_line. cbn [ubind]. apply String.eqb_neq in Hn. by rewrite Hn.
Qed.
Print Assumptions C51_created_refused.
Example C51_created_example : ∀ rest, ∃ s, loadBlob toy Absent None (Some se_salt) (ILine se_pass :: ILine se_pass :: rest) = UOk s rest.
Proof. intros rest. eexists. unfold loadBlob. rewrite !prompt_line. reflexivity. Qed.

Example C51_example :
  prims_ok toy ∧ good (s_db se_single) se_m ∧ single_session toy se_single se_pass ∧ s_readOnly se_single = false ∧
  serves toy se_multi se_m2 ∧ s_readOnly se_multi = false ∧ fair se_env ∧ fair_results map_to_list ∧
  unlocks toy se_m2 (s_master se_multi) "alice" "correct horse" ∧ unlocks toy se_m2 (s_master se_multi) "bob" "staple" ∧
  (se_m2 !! "u1" ≫= λ b, b !! "pass") = Some "hunter2".
Proof.
  split; [apply toy_ok|]. split; [apply se_good|]. split; [apply se_single_ok|]. split; [done|]. split; [apply se_serves|]. split; [done|].
  split; [apply se_fair|]. split; [apply se_ord|]. split; [apply se_alice|]. split; [apply se_bob|]. rewrite se_u1. reflexivity.
Qed.

(** Nothing can be saved while a multi-user store has an entry called user/…
    without credentials, as [add] makes it … *)
Theorem C51_user_entry_refuted : ∀ P e ord riv s m u x b,
  holds (s_db s) m → all_named m → fair e → fair_results ord → s_readOnly s = false → length (s_master s) ≠ 0 →
  m !! u = Some b → b !! "name" = Some ("user/" +:+ x) → x = "" ∨ b !! "salt" = None →
  ∀ s' f, saveBlob P e ord riv s ≠ (s', Ok f).
Proof. exact no_creds_no_save. Qed.
Print Assumptions C51_user_entry_refuted.

(** … or once no entry is called user/… any more, as after [mv]. *)
Theorem C51_no_users_refuted : ∀ P e ord riv s m,
  holds (s_db s) m → all_named m → fair e → fair_results ord → s_readOnly s = false → length (s_master s) ≠ 0 →
  (∀ x, ¬ is_user m x) → ∀ s' f, saveBlob P e ord riv s ≠ (s', Ok f).
Proof. exact no_users_no_save. Qed.
Print Assumptions C51_no_users_refuted.

(** The same, by using the program: adding the entry user/carol. *)
Example C51_refuted_example : ∃ d, NewUser se_env "carol" (s_db se_multi) = (d, Ok "u9") ∧
  ∀ riv s' f, saveBlob toy se_env map_to_list riv (set_db d se_multi) ≠ (s', Ok f).
Proof.
  destruct (NewUser_ok se_env "carol" se_db2 se_m2) as (d & E & Hg & _);
    [apply se_good2|apply se_named2|apply se_fair|apply se_clock|apply se_room2|apply se_unused2|apply se_utf8|utf8_lit| |].
  { intros H. apply se_users in H. set_solver. }
  exists d. split; [exact E|]. intros riv s' f. eapply no_creds_no_save; [apply Hg| |apply se_fair|apply se_ord|done|done|apply lookup_insert|apply lookup_insert|].
  - eapply (well_named_fresh _ _ _ "user/carol"); [apply se_named2| |apply lookup_insert]. intros u H. apply (se_called u "carol") in H. destruct H as [[_ ?]|[_ ?]]; done.
  - right. compute_dec.
Qed.

(** ** C52: adduser, rekey and passwd *)

(** [serves] of the resulting session and [unlocks] are what C51_multi_partial
    needs to open the file after the next save. *)
Theorem C52_adduser_multi_partial : ∀ P e r x s m inp pw rest salt iv,
  prims_ok P → serves P s m → fair e → clock_ok e → rand_ok r → room (s_db s) →
  new_user_ok P m x → unused (s_db s) (e_uuid e) → utf8 (e_uuid e) → e_uuid e ≠ "" →
  newPassword r inp = UOk pw rest → r_salt r 0 = Some salt → r_iv r 0 = Some iv →
  ∃ d' m' b, adduser P e r x s inp = (set_db d' s, UOk tt rest) ∧ serves P (set_db d' s) m' ∧
    m !! e_uuid e = None ∧ m' = <[e_uuid e := b]> m ∧ (∀ y, is_user m' y ↔ y = x ∨ is_user m y) ∧
    (pw ≠ "" → unlocks P m' (s_master s) x pw) ∧ (∀ y p, unlocks P m (s_master s) y p → unlocks P m' (s_master s) y p).
Proof. exact adduser_multi. Qed.
Print Assumptions C52_adduser_multi_partial.

(** The first user of a single-user file gets in with the file's passphrase. *)
Theorem C52_adduser_first_partial : ∀ P e r x s m pass inp iv master ivm,
  prims_ok P → good (s_db s) m → well_named m → single_session P s pass → fair e → clock_ok e → rand_ok r → room (s_db s) →
  x ≠ "" → utf8 x → (∀ y, ¬ is_user m y) → unused (s_db s) (e_uuid e) → utf8 (e_uuid e) → e_uuid e ≠ "" →
  r_iv r 0 = Some iv → r_master r = Some master → r_ivm r = Some ivm →
  ∃ d' m' b, let s' := set_db d' (set_user x (set_master master ivm s)) in
    adduser P e r x s inp = (s', UOk tt inp) ∧ serves P s' m' ∧
    m !! e_uuid e = None ∧ m' = <[e_uuid e := b]> m ∧ (∀ y, is_user m' y ↔ y = x) ∧ unlocks P m' master x pass.
Proof. exact adduser_single. Qed.
Print Assumptions C52_adduser_first_partial.

Theorem C52_rekey_user_partial : ∀ P e r x s m inp pw rest salt iv,
  prims_ok P → serves P s m → fair e → clock_ok e → rand_ok r → room (s_db s) → is_user m x →
  newPassword r inp = UOk pw rest → pw ≠ "" → r_salt r 0 = Some salt → r_iv r 0 = Some iv →
  ∃ d' m', rekey P e r x s inp = (set_db d' s, UOk tt rest) ∧ serves P (set_db d' s) m' ∧ only_creds m m' x ∧
    unlocks P m' (s_master s) x pw ∧ (∀ y p, y ≠ x → unlocks P m (s_master s) y p → unlocks P m' (s_master s) y p).
Proof. exact rekey_user. Qed.
Print Assumptions C52_rekey_user_partial.

Theorem C52_rekey_self_partial : ∀ P e r s m inp salt iv,
  prims_ok P → serves P s m → fair e → clock_ok e → rand_ok r → room (s_db s) → is_user m (s_user s) →
  s_pass s ≠ "" → r_salt r 0 = Some salt → r_iv r 0 = Some iv →
  ∃ d' m', let s' := set_db d' (set_creds (s_pass s) (key_of P (str_bytes (s_pass s)) salt) salt s) in
    rekey P e r "" s inp = (s', UOk tt inp) ∧ serves P s' m' ∧ only_creds m m' (s_user s) ∧
    unlocks P m' (s_master s) (s_user s) (s_pass s) ∧
    (∀ y p, y ≠ s_user s → unlocks P m (s_master s) y p → unlocks P m' (s_master s) y p).
Proof. exact rekey_self. Qed.
Print Assumptions C52_rekey_self_partial.

(** passwd with the user's own name, or without a name. *)
Theorem C52_passwd_self_partial : ∀ P e r x s m inp pw rest salt iv,
  prims_ok P → serves P s m → fair e → clock_ok e → rand_ok r → room (s_db s) → is_user m (s_user s) → x = s_user s ∨ x = "" →
  newPassword r inp = UOk pw rest → pw ≠ "" → r_salt r 0 = Some salt → r_iv r 0 = Some iv →
  ∃ s' m', passwd P e r x s inp = (s', UOk tt rest) ∧ serves P s' m' ∧ only_creds m m' (s_user s) ∧
    s_master s' = s_master s ∧ unlocks P m' (s_master s) (s_user s) pw ∧
    (∀ y p, y ≠ s_user s → unlocks P m (s_master s) y p → unlocks P m' (s_master s) y p).
Proof.
  intros P e r x s m inp pw rest salt iv HP Hs Hf Hc Hr Hroom Hu _ Hpw Hne H1 H2.
  destruct (passwd_multi P e r x s m inp pw rest salt iv HP Hs Hf Hc Hr Hroom Hu Hpw Hne H1 H2) as (d' & m' & E & Hs' & Ho & Hul & Hoth).
  eexists _, m'. split; [exact E|]. split; [exact Hs'|]. split; [done|]. split; [by destruct (String.eqb (s_user s) x)|]. done.
Qed.
Print Assumptions C52_passwd_self_partial.

(** The session with a new passphrase. *)
Definition with_pass (P : prims) (pw : string) (salt : bytes) (s : session) : session :=
  set_creds pw (key_of P (str_bytes pw) salt) salt s.

(** In a single-user file, passwd and rekey change the file's passphrase and salt. *)
Theorem C52_passwd_single : ∀ P e r x s pass inp pw rest salt,
  single_session P s pass → s_user s = "" → newPassword r inp = UOk pw rest → pw ≠ "" → r_salt r 0 = Some salt → length salt = 32 →
  passwd P e r x s inp = (with_pass P pw salt s, UOk tt rest) ∧ single_session P (with_pass P pw salt s) pw.
Proof.
  intros P e r x s pass inp pw rest salt (Hm & _) Hu Hpw Hne Hsalt Hl. split; [|by repeat split].
  unfold passwd. rewrite (C_ok _ _ _ _ s pw rest) by (unfold ask; by rewrite Hpw). rewrite (proj2 (String.eqb_neq _ _) Hne).
  rewrite Hsalt. rewrite (C_ok _ _ _ _ s (key_of P (str_bytes pw) salt, salt) rest) by done. rewrite (C_ok _ _ _ _ s s rest) by done.
  rewrite Hu. cbn [String.eqb orb]. rewrite (C_ok _ _ _ _ (with_pass P pw salt s) tt rest) by done. rewrite Hm. done.
Qed.
Print Assumptions C52_passwd_single.

Theorem C52_rekey_single : ∀ P e r s inp salt,
  single_session P s (s_pass s) → r_salt r 0 = Some salt → length salt = 32 →
  rekey P e r "" s inp = (with_pass P (s_pass s) salt s, UOk tt inp) ∧ single_session P (with_pass P (s_pass s) salt s) (s_pass s).
Proof.
  intros P e r s inp salt (Hm & _ & _ & Hne) Hsalt Hl. split; [|by repeat split].
  unfold rekey. rewrite (C_ok _ _ _ _ s s inp) by done. cbn [String.eqb]. rewrite (C_ok _ _ _ _ s (s_pass s) inp) by done.
  rewrite (proj2 (String.eqb_neq _ _) Hne). rewrite Hsalt. rewrite (C_ok _ _ _ _ s (key_of P (str_bytes (s_pass s)) salt, salt) inp) by done.
  rewrite (C_ok _ _ _ _ (with_pass P (s_pass s) salt s) tt inp) by done. rewrite Hm. done.
Qed.
Print Assumptions C52_rekey_single.

(** An empty password, or a prompt given up, changes nothing. *)
Theorem C52_no_password : ∀ P e r x s inp,
  (∀ rest, newPassword r inp = UOk "" rest →
     passwd P e r x s inp = (s, UOk tt rest) ∧ (x ≠ "" → rekey P e r x s inp = (s, UOk tt rest))) ∧
  (∀ err rest, newPassword r inp = UErr err rest →
     passwd P e r x s inp = (s, UErr err rest) ∧ (x ≠ "" → rekey P e r x s inp = (s, UErr err rest))).
Proof.
  intros P e r x s inp. split.
  - intros rest Hpw. split.
    + unfold passwd. rewrite (C_ok _ _ _ _ s "" rest) by (unfold ask; by rewrite Hpw). done.
    + intros Hx. unfold rekey. rewrite (C_ok _ _ _ _ s s inp) by done. rewrite (proj2 (String.eqb_neq _ _) Hx).
      rewrite (C_ok _ _ _ _ s "" rest) by (unfold ask; by rewrite Hpw). done.
  - intros err rest Hpw. split.
    + unfold passwd, mbind, C_bind, ask. by rewrite Hpw.
    + intros Hx. unfold rekey. rewrite (C_ok _ _ _ _ s s inp) by done. rewrite (proj2 (String.eqb_neq _ _) Hx).
      unfold mbind, C_bind, ask. by rewrite Hpw.
Qed.
Print Assumptions C52_no_password.

(** Adding a user that exists changes nothing. *)
Theorem C52_adduser_taken : ∀ P e r x s m inp, holds (s_db s) m → well_named m → fair e → is_user m x →
  ∃ d', adduser P e r x s inp = (set_db d' s, UOk tt inp) ∧ vis (db_log d') = vis (db_log (s_db s)).
Proof.
  intros P e r x s m inp Hh [Ha _] Hf (u & Hc).
  destruct (New_spec e 0 ("user/" +:+ x) (s_db s) m Hh Ha Hf) as [[_ (d' & E & Hh' & Hv & _)]|[Hn _]].
  - exists d'. split; [|done]. unfold adduser. unfold NewUser. change (userPrefix +:+ x) with ("user/" +:+ x). rewrite E. done.
  - exfalso. by apply (Hn u).
Qed.
Print Assumptions C52_adduser_taken.

Example C52_example :
  prims_ok toy ∧ serves toy se_multi se_m2 ∧ fair se_env ∧ clock_ok se_env ∧ rand_ok se_rand ∧ room (s_db se_multi) ∧
  new_user_ok toy se_m2 "carol" ∧ unused (s_db se_multi) (e_uuid se_env) ∧ utf8 (e_uuid se_env) ∧
  is_user se_m2 (s_user se_multi) ∧ is_user se_m2 "bob" ∧ s_pass se_multi ≠ "" ∧
  newPassword se_rand [ILine "m"; ILine "battery"; ILine "battery"] = UOk "battery" [] ∧
  (∀ y, ¬ is_user se_m y) ∧ room (s_db se_single) ∧ unused (s_db se_single) (e_uuid se_env) ∧
  single_session toy se_single (s_pass se_single) ∧ s_user se_single = "".
Proof.
  split; [apply toy_ok|]. split; [apply se_serves|]. split; [apply se_fair|]. split; [apply se_clock|]. split; [apply se_rand_ok|]. split; [apply se_room2|].
  split.
  { split; [done|]. split; [utf8_lit|]. split; [intros H; apply se_users in H; set_solver|]. split.
    - intros y Hy. apply se_users in Hy. apply elem_of_cons in Hy as [->|[->|H%elem_of_nil]%elem_of_cons]; [..|done]; intros E; vm_compute in E; done.
    - intros l Hnd Hin. assert (length l ≤ length ["alice"; "bob"]) as H; [|cbn [length] in H; lia].
      apply submseteq_length, NoDup_submseteq; [done|]. intros x Hx. apply se_users. by apply Hin. }
  split; [apply se_unused2|]. split; [apply se_utf8|]. split; [apply se_users; set_solver|]. split; [apply se_users; set_solver|]. split; [done|].
  split; [apply se_typed|]. split; [apply se_no_users|]. split; [apply se_room|]. split; [apply se_unused|]. split; [apply se_single_ok|done].
Qed.

(** passwd with the name of another user changes the password of whoever is
    logged in, and leaves the other user's alone. *)
Theorem C52_passwd_other_refuted : ∀ P e r x s m inp pw rest salt iv,
  prims_ok P → serves P s m → fair e → clock_ok e → rand_ok r → room (s_db s) → is_user m (s_user s) → is_user m x → x ≠ s_user s →
  newPassword r inp = UOk pw rest → pw ≠ "" → r_salt r 0 = Some salt → r_iv r 0 = Some iv →
  ∃ d' m', passwd P e r x s inp = (set_db d' s, UOk tt rest) ∧ serves P (set_db d' s) m' ∧
    only_creds m m' (s_user s) ∧ unlocks P m' (s_master s) (s_user s) pw ∧
    (∀ p, unlocks P m (s_master s) x p → unlocks P m' (s_master s) x p).
Proof.
  intros P e r x s m inp pw rest salt iv HP Hs Hf Hc Hr Hroom Hu _ Hx Hpw Hne H1 H2.
  destruct (passwd_multi P e r x s m inp pw rest salt iv HP Hs Hf Hc Hr Hroom Hu Hpw Hne H1 H2) as (d' & m' & E & Hs' & Ho & Hul & Hoth).
  rewrite (proj2 (String.eqb_neq (s_user s) x)) in E, Hs' by congruence.
  exists d', m'. split; [exact E|]. split; [exact Hs'|]. split; [done|]. split; [done|]. intros p. by apply Hoth.
Qed.
Print Assumptions C52_passwd_other_refuted.

(** After passwd without a name, rekey brings the old password back. *)
Theorem C52_old_password_returns_refuted : ∀ P e r e2 r2 s m inp pw rest salt iv salt2 iv2,
  prims_ok P → serves P s m → fair e → clock_ok e → rand_ok r → fair e2 → clock_ok e2 → rand_ok r2 →
  (Z.of_nat (length (vis (db_log (s_db s)))) + 13 < 2 ^ 64)%Z → is_user m (s_user s) → s_user s ≠ "" → s_pass s ≠ "" →
  newPassword r inp = UOk pw rest → pw ≠ "" → r_salt r 0 = Some salt → r_iv r 0 = Some iv → r_salt r2 0 = Some salt2 → r_iv r2 0 = Some iv2 →
  ∃ s1 s2 m2, passwd P e r "" s inp = (s1, UOk tt rest) ∧ rekey P e2 r2 "" s1 rest = (s2, UOk tt rest) ∧
    serves P s2 m2 ∧ s_master s2 = s_master s ∧ unlocks P m2 (s_master s2) (s_user s) (s_pass s).
Proof.
  intros P e r e2 r2 s m inp pw rest salt iv salt2 iv2 HP Hs Hf Hc Hr Hf2 Hc2 Hr2 Hroom Hu Hu0 Hp0 Hpw Hne H1 H2 H3 H4.
  destruct (passwd_multi_log P e r "" s m inp pw rest salt iv HP Hs Hf Hc Hr ltac:(unfold room; lia) Hu Hpw Hne H1 H2) as (d' & m' & E & Hs' & Ho & _ & _ & Hl).
  rewrite (proj2 (String.eqb_neq (s_user s) "")) in E, Hs' by done.
  assert (is_user m' (s_user s)) as Hu'.
  { destruct Hu as (u & Hcd). destruct Ho as (v & b & sa & i & mk & _ & Hb & ->). exists u. by apply called_with_row. }
  destruct (rekey_self P e2 r2 (set_db d' s) m' rest salt2 iv2) as (d2 & m2 & E2 & Hs2 & _ & Hul & _); try done.
  { unfold room. cbn [s_db set_db]. lia. }
  eexists _, _, m2. split; [exact E|]. split; [exact E2|]. split; [exact Hs2|]. done.
Qed.
Print Assumptions C52_old_password_returns_refuted.

(** adduser takes an empty password; that user can then never open the file. *)
Theorem C52_empty_password_refuted : ∀ P e r x s m inp rest salt iv e2 ord riv sp rsalt hist rest2,
  prims_ok P → serves P s m → fair e → clock_ok e → rand_ok r → room (s_db s) → s_readOnly s = false →
  new_user_ok P m x → unused (s_db s) (e_uuid e) → utf8 (e_uuid e) → e_uuid e ≠ "" →
  newPassword r inp = UOk "" rest → r_salt r 0 = Some salt → r_iv r 0 = Some iv →
  fair e2 → fair_results ord → (∀ b, riv = Some b → length b = 40) →
  ∃ s1 s2 f, adduser P e r x s inp = (s1, UOk tt rest) ∧ saveBlob P e2 ord riv s1 = (s2, Ok (Some f)) ∧
    loadBlob P (Found (mk_slice f sp)) hist rsalt (ILine x :: ILine "" :: rest2) = UErr EWrongPassphrase rest2.
Proof.
  intros P e r x s m inp rest salt iv e2 ord riv sp rsalt hist rest2 HP Hs Hf Hc Hr Hroom Hro Hx Hun Hu8 Hune Hpw H1 H2 Hf2 Ho Hriv.
  destruct (adduser_multi P e r x s m inp "" rest salt iv) as (d' & m' & b & E & Hs' & _ & _ & HU & _); try done.
  destruct (empty_pass_load P (set_db d' s) x m' e2 ord riv sp rsalt hist rest2) as (f & s2 & Es & El); try done.
  { apply HU. by left. }
  by exists (set_db d' s), s2, f.
Qed.
Print Assumptions C52_empty_password_refuted.

Example C52_empty_password_example : newPassword se_rand [ILine "m"; ILine ""; ILine ""] = UOk "" [].
Proof. apply se_typed. Qed.

(** Giving up at the password prompt of adduser leaves a user without
    credentials; nothing can be saved from then on. *)
Theorem C52_interrupted_refuted : ∀ P e r x s m inp err rest,
  serves P s m → fair e → clock_ok e → room (s_db s) → s_readOnly s = false →
  utf8 x → ¬ is_user m x → unused (s_db s) (e_uuid e) → utf8 (e_uuid e) → newPassword r inp = UErr err rest →
  ∃ s1, adduser P e r x s inp = (s1, UErr err rest) ∧
    ∀ e2 ord riv s2 f, fair e2 → fair_results ord → saveBlob P e2 ord riv s1 ≠ (s2, Ok f).
Proof.
  intros P e r x s m inp err rest Hs Hf Hc Hroom Hro Hx8 Hnx Hun Hu8 Hpw.
  destruct (adduser_interrupted P e r x s m inp err rest) as (d' & E & Hg); try done.
  exists (set_db d' s). split; [done|]. intros e2 ord riv s2 f Hf2 Ho. destruct Hs as (_ & Hw & Lm & _).
  eapply no_creds_no_save; [apply Hg| |done|done|done|cbn [s_master set_db]; rewrite Lm; done|apply lookup_insert|apply lookup_insert|].
  - eapply (well_named_fresh _ _ _ ("user/" +:+ x)); [done| |apply lookup_insert]. intros u H. apply Hnx. by exists u.
  - right. unfold new_entry. rewrite lookup_insert_ne by done. rewrite lookup_insert_ne by done. apply lookup_empty.
Qed.
Print Assumptions C52_interrupted_refuted.

(** If no master key can be drawn, adduser reports no error although the user has
    no credentials. *)
Theorem C52_adduser_error_refuted : ∀ P e r x s m pass inp,
  good (s_db s) m → well_named m → single_session P s pass → fair e → clock_ok e → room (s_db s) →
  utf8 x → (∀ y, ¬ is_user m y) → unused (s_db s) (e_uuid e) → utf8 (e_uuid e) → r_master r = None →
  ∃ s1 m1, adduser P e r x s inp = (s1, UOk tt inp) ∧ s_master s1 = [] ∧ good (s_db s1) m1 ∧ is_user m1 x ∧
    ∀ master p, ¬ unlocks P m1 master x p.
Proof.
  intros P e r x s m pass inp Hg Hw Hs Hf Hc Hroom Hx8 Hnx Hun Hu8 Hr.
  destruct (adduser_no_master P e r x s m pass inp) as (d' & E & Hg'); try done.
  eexists _, _. split; [exact E|]. split; [done|]. split; [exact Hg'|]. split; [exists (e_uuid e), (new_entry e ("user/" +:+ x)); split; apply lookup_insert|].
  intros master p (_ & u & salt & iv & mkey & (b & Hb & Hn & Hsalt & _) & _). apply lookup_insert_Some in Hb as [[<- <-]|[_ Hb]].
  - unfold new_entry in Hsalt. rewrite !lookup_insert_ne, lookup_empty in Hsalt by done. done.
  - apply (Hnx x). by exists u, b.
Qed.
Print Assumptions C52_adduser_error_refuted.

(** A single-user file may have an ordinary entry called user/…; the first
    adduser makes it impossible to save. *)
Theorem C52_adduser_unsavable_refuted : ∀ P e r x s m pass inp iv master ivm u y b,
  prims_ok P → good (s_db s) m → well_named m → single_session P s pass → s_readOnly s = false →
  fair e → clock_ok e → rand_ok r → room (s_db s) → utf8 x → ¬ is_user m x → unused (s_db s) (e_uuid e) → utf8 (e_uuid e) →
  r_iv r 0 = Some iv → r_master r = Some master → r_ivm r = Some ivm →
  m !! u = Some b → b !! "name" = Some ("user/" +:+ y) → b !! "salt" = None →
  ∃ s1, adduser P e r x s inp = (s1, UOk tt inp) ∧
    ∀ e2 ord riv s2 f, fair e2 → fair_results ord → saveBlob P e2 ord riv s1 ≠ (s2, Ok f).
Proof.
  intros P e r x s m pass inp iv master ivm u y b HP Hg Hw Hs Hro Hf Hc Hr Hroom Hx8 Hnx Hun Hu8 H1 H2 H3 Hb Hn Hsalt.
  destruct (adduser_single_other P e r x s m pass inp iv master ivm u y b) as (s1 & E & Hro1 & Hm1 & m1 & Hh & Ha & Hb1); try done.
  exists s1. split; [done|]. intros e2 ord riv s2 f Hf2 Ho.
  eapply (no_creds_no_save P e2 ord riv s1 m1 u y b); [done|done|done|done|congruence|done|done|done|by right].
Qed.
Print Assumptions C52_adduser_unsavable_refuted.

(** rekey in a session that created its file does nothing: the session does not
    know the passphrase. *)
Theorem C52_rekey_created_refuted : ∀ P e r pass rsalt rest inp, prims_ok P → pass ≠ "" → length rsalt = 32 →
  ∃ s, loadBlob P Absent None (Some rsalt) (ILine pass :: ILine pass :: rest) = UOk s rest ∧ rekey P e r "" s inp = (s, UOk tt inp).
Proof.
  intros P e r pass rsalt rest inp HP Hp Hl. exists (mk_session true false 0 db_new "" "" (key_of P (str_bytes pass) rsalt) rsalt [] []). split; [|done].
  unfold loadBlob. rewrite prompt_line. cbn [ubind]. destruct pass as [|c pass]; [done|]. cbn [String.length Nat.eqb]. rewrite prompt_line. cbn [ubind].
  rewrite String.eqb_refl. cbn [negb]. rewrite DeriveKey_ok. done.
Qed.
Print Assumptions C52_rekey_created_refuted.

(** ** C53: rekeyall *)

(** What rekeyall leaves alone: it does nothing, or every entry keeps all that is
    not credentials, and every user gets a printed password. *)
Theorem C53_rest_partial : ∀ P e r s m inp s' printed rest,
  prims_ok P → serves P s m → fair e → fair_results (r_ord r) → clock_ok e → rand_ok r →
  (Z.of_nat (length (vis (db_log (s_db s)))) + 29997 < 2 ^ 64)%Z →
  rekeyAll P e r s inp = (s', UOk printed rest) →
  (s' = s ∧ printed = []) ∨
  ∃ m', serves P s' m' ∧ (∀ v y, called m' v y ↔ called m v y) ∧
    (∀ v b, m !! v = Some b → ∃ b', m' !! v = Some b' ∧ ∀ k, k ∉ ["salt"; "iv"; "mkey"] → b' !! k = b !! k) ∧
    (∀ v, (∀ x, ¬ called m v ("user/" +:+ x)) → m' !! v = m !! v) ∧
    (∀ x, is_user m x → ∃ pw, (x, pw) ∈ printed).
Proof.
  intros P e r s m inp s' printed rest HP Hs Hf Ho Hc Hr Hroom E.
  destruct (rekeyAll_ok P e r s m inp s' printed rest HP Hs Hf Ho Hc Hr Hroom E) as [?|(m' & master & ivm & _ & _ & _ & _ & Hs' & H1 & H2 & H3 & H4 & _)]; [by left|].
  right. by exists m'.
Qed.
Print Assumptions C53_rest_partial.

(** The file is encrypted under the new master key, the printed passwords unlock
    the old one: nobody can open the file. *)
Theorem C53_locked_out_refuted : ∀ P e r s m inp s' printed rest,
  prims_ok P → serves P s m → fair e → fair_results (r_ord r) → clock_ok e → rand_ok r →
  (Z.of_nat (length (vis (db_log (s_db s)))) + 29997 < 2 ^ 64)%Z →
  rekeyAll P e r s inp = (s', UOk printed rest) → s' ≠ s → r_master r ≠ Some (s_master s) →
  ∃ m', serves P s' m' ∧ r_master r = Some (s_master s') ∧
    ∀ x pw, (x, pw) ∈ printed → is_user m' x ∧ unlocks P m' (s_master s) x pw ∧ ¬ unlocks P m' (s_master s') x pw.
Proof.
  intros P e r s m inp s' printed rest HP Hs Hf Ho Hc Hr Hroom E Hne Hma.
  destruct (rekeyAll_ok P e r s m inp s' printed rest HP Hs Hf Ho Hc Hr Hroom E) as [[? _]|(m' & master & ivm & H0 & _ & H1 & _ & Hs' & Hcd & _ & _ & _ & H2)]; [done|].
  exists m'. split; [done|]. split; [congruence|]. intros x pw Hin. destruct (H2 x pw Hin) as ((u & Hu) & Hul & Hno).
  split; [exists u; by apply Hcd|]. split; [done|]. rewrite H1. apply Hno. congruence.
Qed.
Print Assumptions C53_locked_out_refuted.

Example C53_example : ∃ s' printed rest,
  rekeyAll toy se_env se_rand se_multi [ILine "y"] = (s', UOk printed rest) ∧ printed.*1 ≡ₚ ["alice"; "bob"] ∧
  r_master se_rand ≠ Some (s_master se_multi) ∧ s_master s' ≠ s_master se_multi ∧
  (Z.of_nat (length (vis (db_log (s_db se_multi)))) + 29997 < 2 ^ 64)%Z.
Proof.
  assert (match rekeyAll toy se_env se_rand se_multi [ILine "y"] with
          | (s', UOk printed _) => bool_decide (printed.*1 = ["alice"; "bob"]) && negb (bool_decide (s_master s' = s_master se_multi))
          | _ => false end = true) as H by (vm_compute; reflexivity).
  destruct (rekeyAll toy se_env se_rand se_multi [ILine "y"]) as [s' [printed rest| | |]] eqn:E; [|done..].
  apply andb_true_iff in H as [H1 H2]. apply bool_decide_eq_true in H1. apply negb_true_iff, bool_decide_eq_false in H2.
  exists s', printed, rest. split; [reflexivity|]. clear E. split; [by rewrite H1|]. split; [compute_dec|]. split; [exact H2|]. reflexivity.
Qed.

(** ** C54: deleting an entry *)

(** The name has "user/" nowhere but at its beginning. *)
Definition plain_user_name (name : string) : Prop := ∀ a b, name = a +:+ "user/" +:+ b → ∃ b', name = "user/" +:+ b'.

(** After the name is typed again, exactly that entry goes.  The credentials and
    the mode stay, unless the user is the only one and deletes themselves. *)
Theorem C54_exact_partial : ∀ e name s m u rest,
  good (s_db s) m → well_named m → fair e → clock_ok e → room (s_db s) → called m u name → u ≠ "" → s_user s ≠ "" →
  plain_user_name name → ¬ own_entry s name →
  ∃ d', deleteEntry e name s (ILine name :: rest) = (set_db d' s, UOk tt rest) ∧ good d' (delete u m).
Proof.
  intros e name s m u rest Hg Hw Hf Hc Hr Hcd Hu Hs Hp Hown.
  assert (counts_as_own s name = false) as Hc0. { destruct (counts_as_own s name) eqn:E; [|done]. exfalso. by apply Hown, own_counts. }
  destruct (delete_done e name s m u rest Hg Hw Hf Hc Hr Hcd Hu (or_introl Hc0)) as (d' & E & Hg'). rewrite Hc0 in E. by exists d'.
Qed.
Print Assumptions C54_exact_partial.

(** In a single-user file nobody is logged in, and the name does not matter. *)
Theorem C54_single : ∀ e name s m u rest,
  good (s_db s) m → well_named m → fair e → clock_ok e → room (s_db s) → called m u name → u ≠ "" → s_user s = "" →
  ∃ d', deleteEntry e name s (ILine name :: rest) = (set_db d' s, UOk tt rest) ∧ good d' (delete u m).
Proof.
  intros e name s m u rest Hg Hw Hf Hc Hr Hcd Hu Hs.
  assert (counts_as_own s name = false) as Hc0.
  { unfold counts_as_own. rewrite Hs. destruct (SplitUsername name) as [x| |]; [|done..]. by destruct (String.eqb x ""). }
  destruct (delete_done e name s m u rest Hg Hw Hf Hc Hr Hcd Hu (or_introl Hc0)) as (d' & E & Hg'). rewrite Hc0 in E. by exists d'.
Qed.
Print Assumptions C54_single.

(** The last user deletes themselves: the file becomes a single-user file that
    opens with their passphrase. *)
Theorem C54_last_user : ∀ P e s m u pass rest,
  good (s_db s) m → well_named m → fair e → clock_ok e → room (s_db s) → called m u ("user/" +:+ s_user s) → u ≠ "" → s_user s ≠ "" →
  ¬ several_users m → pass ≠ "" → s_key s = key_of P (str_bytes pass) (s_salt s) → length (s_salt s) = 32 →
  ∃ s', deleteEntry e ("user/" +:+ s_user s) s (ILine ("user/" +:+ s_user s) :: rest) = (s', UOk tt rest) ∧
    good (s_db s') (delete u m) ∧ single_session P s' pass ∧ s_readOnly s' = s_readOnly s.
Proof.
  intros P e s m u pass rest Hg Hw Hf Hc Hr Hcd Hu Hs Hsev Hp Hk Hl.
  assert (counts_as_own s ("user/" +:+ s_user s) = true) as Hc1. { apply own_counts; [done| |by split]. intros a b _. by eexists. }
  destruct (delete_done e _ s m u rest Hg Hw Hf Hc Hr Hcd Hu (or_intror Hsev)) as (d' & E & Hg'). rewrite Hc1 in E.
  exists (set_db d' (set_master [] [] s)). split; [done|]. split; [done|]. split; [|done]. repeat split; done.
Qed.
Print Assumptions C54_last_user.

(** Deleting oneself is refused while there are other users. *)
Theorem C54_self_refused : ∀ e s m u inp,
  good (s_db s) m → well_named m → fair e → called m u ("user/" +:+ s_user s) → u ≠ "" → s_user s ≠ "" → several_users m →
  ∃ s', deleteEntry e ("user/" +:+ s_user s) s inp = (s', UOk tt inp) ∧ unchanged s s' ∧ good (s_db s') m.
Proof.
  intros e s m u inp Hg Hw Hf Hcd Hu Hs Hsev. apply (delete_refused e _ s m u); try done. apply own_counts; [done| |by split]. intros a b _. by eexists.
Qed.
Print Assumptions C54_self_refused.

(** Nothing is deleted if another line is typed, or if there is no such entry. *)
Theorem C54_not_confirmed_partial : ∀ e name s m u line rest,
  good (s_db s) m → well_named m → fair e → called m u name → u ≠ "" → line ≠ name → s_user s = "" ∨ (plain_user_name name ∧ ¬ own_entry s name) →
  ∃ s', deleteEntry e name s (ILine line :: rest) = (s', UOk tt rest) ∧ unchanged s s' ∧ good (s_db s') m.
Proof.
  intros e name s m u line rest Hg Hw Hf Hcd Hu Hl Hor. apply (delete_not e name s m u); try done. left.
  destruct (decide (s_user s = "")) as [E|Hs].
  - unfold counts_as_own. rewrite E. destruct (SplitUsername name) as [x| |]; [|done..]. by destruct (String.eqb x "").
  - destruct Hor as [?|[Hp Hown]]; [done|]. destruct (counts_as_own s name) eqn:E; [|done]. exfalso. by apply Hown, own_counts.
Qed.
Print Assumptions C54_not_confirmed_partial.

Theorem C54_absent : ∀ e name s m inp, good (s_db s) m → well_named m → fair e → (∀ u, ¬ called m u name) →
  ∃ s', deleteEntry e name s inp = (s', UOk tt inp) ∧ unchanged s s' ∧ good (s_db s') m.
Proof. exact delete_absent. Qed.
Print Assumptions C54_absent.

Example C54_example :
  good (s_db se_multi) se_m2 ∧ well_named se_m2 ∧ fair se_env ∧ clock_ok se_env ∧ room (s_db se_multi) ∧
  called se_m2 "u1" "mail" ∧ s_user se_multi ≠ "" ∧ plain_user_name "mail" ∧ ¬ own_entry se_multi "mail" ∧
  called se_m2 "u2" ("user/" +:+ s_user se_multi) ∧ several_users se_m2 ∧ plain_user_name "user/bob" ∧ ¬ own_entry se_multi "user/bob".
Proof.
  split; [apply se_good2|]. split; [apply se_named2|]. split; [apply se_fair|]. split; [apply se_clock|]. split; [apply se_room2|].
  split; [exists se_mail; split; [apply se_u1|done]|]. split; [done|]. split.
  { intros a b H. exfalso. assert (String.length "mail" = String.length (a +:+ "user/" +:+ b)) as L by by rewrite H. rewrite !sapp_length in L. cbn in L. lia. }
  split; [intros [_ H]; done|]. split; [eexists; split; [apply se_u2|apply se_user_name]|].
  split; [exists "alice", "bob"; split; [done|]; split; apply se_users; set_solver|].
  split; [intros a b _; by exists "bob"|]. intros [_ H]. done.
Qed.

(** An entry with "user/<me>" inside its name counts as the user's own entry: the
    only user deletes an ordinary entry, and the file silently becomes a
    single-user file although the user still exists … *)
Theorem C54_mode_lost_refuted : ∀ e s m u rest,
  good (s_db s) m → well_named m → fair e → clock_ok e → room (s_db s) → called m u "work/user/alice" → u ≠ "" → s_user s = "alice" → ¬ several_users m →
  ∃ d', deleteEntry e "work/user/alice" s (ILine "work/user/alice" :: rest) = (set_db d' (set_master [] [] s), UOk tt rest) ∧ good d' (delete u m) ∧
    (is_user m "alice" → is_user (delete u m) "alice").
Proof.
  intros e s m u rest Hg Hw Hf Hc Hr Hcd Hu Hs Hsev.
  destruct (delete_done e _ s m u rest Hg Hw Hf Hc Hr Hcd Hu (or_intror Hsev)) as (d' & E & Hg').
  assert (counts_as_own s "work/user/alice" = true) as Hc1 by (unfold counts_as_own; rewrite Hs; reflexivity). rewrite Hc1 in E.
  exists d'. split; [done|]. split; [done|]. intros (v & b & Hb & Hn). exists v, b. split; [|done].
  rewrite lookup_delete_ne; [done|]. intros <-. destruct Hcd as (b' & Hb' & Hn'). rewrite Hb in Hb'. injection Hb' as <-. rewrite Hn in Hn'. done.
Qed.
Print Assumptions C54_mode_lost_refuted.

(** … and with several users the entry cannot be deleted at all. *)
Theorem C54_cannot_delete_refuted : ∀ e s m u inp,
  good (s_db s) m → well_named m → fair e → called m u "work/user/alice" → u ≠ "" → s_user s = "alice" → several_users m →
  ∃ s', deleteEntry e "work/user/alice" s inp = (s', UOk tt inp) ∧ unchanged s s' ∧ good (s_db s') m.
Proof.
  intros e s m u inp Hg Hw Hf Hcd Hu Hs Hsev. apply (delete_refused e _ s m u); try done. unfold counts_as_own. rewrite Hs. reflexivity.
Qed.
Print Assumptions C54_cannot_delete_refuted.

(** ** C56: a crash while saving (main.go:267, ioutil.WriteFile) *)

(** Before the write starts, and once it is complete, the file opens; a save that
    fails has written nothing. *)
Theorem C56_before_and_after_partial : ∀ P s pass m e ord riv sp rsalt rest old,
  prims_ok P → good (s_db s) m → s_readOnly s = false → single_session P s pass → length riv = 40 →
  ∃ new s2, saveBlob P e ord (Some riv) s = (s, Ok (Some new)) ∧ ∀ f, on_disk old new f →
    (length new ≤ length f → f ≠ old → loadBlob P (Found (mk_slice f sp)) None rsalt (ILine pass :: rest) = UOk s2 rest) ∧
    (f = old ∨ length f < length new ∨ f = new).
Proof.
  intros P s pass m e ord riv sp rsalt rest old HP Hg Hro Hs Hl.
  destruct (single_reopen P s pass m e ord riv sp rsalt rest HP Hg Hro Hs Hl) as (f & s2 & E & D & _).
  exists f, s2. split; [done|]. intros f' [->|(n & ->)].
  - split; [done|by left].
  - rewrite take_length. split.
    + intros H _. rewrite take_ge by lia. done.
    + destruct (decide (length f ≤ n)); [right; right; apply take_ge; lia|right; left; lia].
Qed.
Print Assumptions C56_before_and_after_partial.

(** At first the file is emptied; a crash then leaves neither version, and
    opening what is left crashes for every passphrase. *)
Theorem C56_emptied_refuted : ∀ P old new sp hist rsalt inp, old ≠ [] → new ≠ [] →
  on_disk old new [] ∧ [] ≠ old ∧ [] ≠ new ∧ loadBlob P (Found (mk_slice [] sp)) hist rsalt inp = UPanic.
Proof.
  intros P old new sp hist rsalt inp Ho Hn. split; [right; by exists 0|]. split; [done|]. split; [done|].
  unfold loadBlob. rewrite IsMultiUser_short by (cbn; lia). done.
Qed.
Print Assumptions C56_emptied_refuted.

(** The same for every file cut off within its first eight bytes. *)
Theorem C56_cut_off_refuted : ∀ P old new n sp hist rsalt inp, n < 8 → n < length new →
  on_disk old new (take n new) ∧ take n new ≠ new ∧ loadBlob P (Found (mk_slice (take n new) sp)) hist rsalt inp = UPanic.
Proof.
  intros P old new n sp hist rsalt inp Hn Hl. split; [right; by exists n|]. split.
  - intros E. assert (length (take n new) = length new) as L by by rewrite E. rewrite take_length in L. lia.
  - unfold loadBlob. rewrite IsMultiUser_short by (rewrite take_length; lia). done.
Qed.
Print Assumptions C56_cut_off_refuted.

Example C56_example : ∃ f, saveBlob toy se_env map_to_list (Some se_iv) se_single = (se_single, Ok (Some f)) ∧ f ≠ [] ∧ 8 ≤ length f.
Proof.
  destruct (single_reopen toy se_single se_pass se_m se_env map_to_list se_iv [] None []) as (f & s2 & E & D & _); [apply toy_ok|apply se_good|done|apply se_single_ok|done|].
  exists f. split; [done|].
  assert (8 ≤ length f) as H.
  { destruct (decide (8 ≤ length f)); [done|]. exfalso. unfold loadBlob in D. rewrite IsMultiUser_short in D by lia. done. }
  split; [|done]. intros ->. cbn in H. lia.
Qed.
