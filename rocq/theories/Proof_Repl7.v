(** Proofs that a single-user session can be saved whatever was typed. *)
From Verif Require Import Proof_TxLog Proof_GoStr Proof_Crypt5 Proof_Session Proof_Session2 Proof_Session3 Proof_Session5.
From Verif Require Export Proof_Repl5.
From Coq Require Import Lia.
From stdpp Require Import options.
Import Model_GoStr.
#[local] Open Scope nat_scope.
#[local] Set Default Proof Using "All".

Lemma hoare_know {A} (P : session → Prop) (φ : Prop) (x : C A) Q E : (φ → hoare P x Q E) → hoare (λ s, P s ∧ φ) x Q E.
Proof. intros H s inp s' r [Hs Hp]. by apply H. Qed.
Section single.
  (* [Q]: the passphrases that may be in force *)
  Context (P : prims) (Q : string → Prop).
  Definition JQ (s : session) : Prop := (s_readOnly s = false ∧ (s_pass s = "" ∨ Q (s_pass s))) ∧ ∃ pass, Q pass ∧ single_session P s pass.
  Notation J := JQ.
  Notation keeps x := (hoare J x (λ _, J) J).
  Lemma J_db d s : J s → J (set_db d s). Proof. done. Qed.
  Lemma J_on_db {A} (m : M A) : keeps (on_db m).
  Proof. intros s inp s' r Hs. unfold on_db. destruct (m (s_db s)) as [d o]. intros [= <- <-]. split; intros; by apply J_db. Qed.
  Lemma J_catching {A B} (m : M A) (h : error → option B) k : keeps (catching m h k).
  Proof. intros s inp s' r Hs. unfold catching. destruct (m (s_db s)) as [d [| |]]; intros [= <- <-]; split; intros; by apply J_db. Qed.
  Lemma J_state : keeps state.
  Proof. intros s inp s' r Hs [= <- <-]. done. Qed.
  Lemma J_change f : (∀ s, J s → J (f s)) → keeps (change f).
  Proof. intros H s inp s' r Hs [= <- <-]. split; intros; by apply H. Qed.
  Lemma J_within {A} (x : C A) : keeps x → keeps (within x).
  Proof.
    intros H s inp s' r Hs. unfold within. destruct (x (set_db (Begin (s_db s)) s) inp) as [s1 [a rest|e rest| |]] eqn:E.
    - destruct (H _ _ _ _ (J_db _ _ Hs) E) as [H1 _]. specialize (H1 _ _ eq_refl). destruct (Commit (s_db s1)); intros [= <- <-]; done.
    - destruct (H _ _ _ _ (J_db _ _ Hs) E) as [_ H1]. specialize (H1 _ _ eq_refl). destruct (Rollback (s_db s1)); intros [= <- <-]; done.
    - by intros [= <- <-].
    - by intros [= <- <-].
  Qed.
  Lemma J_interruptible {A} (a : A) (x : C A) : keeps x → keeps (interruptible a x).
  Proof.
    intros H s inp s' r Hs. unfold interruptible. destruct (x s inp) as [s1 r1] eqn:E. destruct (H _ _ _ _ Hs E) as [H1 H2].
    destruct r1 as [b rest|e rest| |]; [intros [= <- <-]; split; [eauto|done]| |by intros [= <- <-]..].
    specialize (H2 _ _ eq_refl). destruct e; intros [= <- <-]; done.
  Qed.
  Ltac jj := repeat (first
    [ by apply hoare_ret | apply hoare_ask | apply hoare_try | apply J_state | apply J_on_db | apply J_catching | apply J_within | apply J_interruptible | apply hoare_if
    | eapply (hoare_bind _ _ _ (λ _, J)); [|intros ?; cbv beta]
    | match goal with |- hoare _ (match ?x with _ => _ end) _ _ => destruct x end ]).
  Context (w : world) (HP : w_P w = P) (Hr : rand_ok (w_rand w)).

  Lemma J_creds pass n key salt s : DeriveKey P cryptVersion (str_bytes pass) (r_salt (w_rand w) n) = Ok (key, salt) → pass ≠ "" → Q pass → J s → J (set_creds pass key salt s).
  Proof.
    intros E Hp HQ [[H1 _] (q & _ & Hm & _)]. split; [split; [done|by right]|]. exists pass. split; [done|]. destruct (r_salt (w_rand w) n) as [b|] eqn:Eb; [|done]. rewrite DeriveKey_ok in E.
    injection E as <- <-. split; [done|]. split; [done|]. split; [|done]. by apply (proj1 Hr n).
  Qed.
  Lemma J_derive {A} pass n (f : bytes * bytes → C A) : (∀ key salt, DeriveKey P cryptVersion (str_bytes pass) (r_salt (w_rand w) n) = Ok (key, salt) → keeps (f (key, salt))) →
    keeps (ks ← try (DeriveKey P cryptVersion (str_bytes pass) (r_salt (w_rand w) n)); f ks).
  Proof.
    intros H. destruct (DeriveKey P cryptVersion (str_bytes pass) (r_salt (w_rand w) n)) as [[key salt]|e|].
    - apply hoare_try_ok. by apply H.
    - intros s inp s' r Hs [= <- <-]. done.
    - intros s inp s' r Hs [= <- <-]. done.
  Qed.
  Lemma J_passwd e u : (∀ pass, Q pass) → keeps (passwd P e (w_rand w) u).
  Proof.
    intros HQ. unfold passwd. eapply (hoare_bind _ _ _ (λ _, J)); [apply hoare_ask|]. intros pass. cbv beta. destruct (String.eqb pass "") eqn:Ep; [by apply hoare_ret|].
    apply String.eqb_neq in Ep. apply J_derive. intros key salt E. jj. apply J_change. intros s9. by eapply J_creds.
  Qed.
  Lemma J_rekey e u : keeps (rekey P e (w_rand w) u).
  Proof.
    unfold rekey. cbv zeta. eapply (hoare_bind _ _ _ (λ s0 s, J s ∧ s0 = s)); [apply hoare_state|]. intros s0. cbv beta.
    eapply (hoare_conseq _ (λ s, J s ∧ (s_pass s0 = "" ∨ Q (s_pass s0))) _ _ (λ _, J) _ J); [|by intros s [H ->]; split; [done|apply H]|done|done].
    apply hoare_know. intros Hq.
    destruct (String.eqb u "") eqn:Eu.
    - apply (hoare_bind _ _ _ (λ p s, J s ∧ (p = "" ∨ Q p))); [apply hoare_ret; by intros|]. intros pass. cbv beta. apply hoare_know. intros Hq'.
      destruct (String.eqb pass "") eqn:Ep; [by apply hoare_ret|]. apply String.eqb_neq in Ep. destruct Hq' as [->|Hq']; [done|].
      apply J_derive. intros key salt E. jj. apply J_change. intros s9. by eapply J_creds.
    - eapply (hoare_bind _ _ _ (λ _, J)); [apply hoare_ask|]. intros pass. cbv beta.
      destruct (String.eqb pass "") eqn:Ep; [by apply hoare_ret|]. apply String.eqb_neq in Ep.
      apply J_derive. intros key salt E. jj.
  Qed.
  Lemma J_rekeyAll e : keeps (rekeyAll P e (w_rand w)).
  Proof.
    intros s inp s' r Hs. pose proof Hs as [_ (q & _ & Hm & _)]. unfold rekeyAll. rewrite (C_ok _ _ _ _ s s inp) by done. rewrite Hm. by intros [= <- <-].
  Qed.
  Lemma J_rm e n : keeps (deleteEntry e n).
  Proof. unfold deleteEntry. jj. apply J_change. intros s9 [H1 (q & H0 & Hm & H2)]. split; [done|]. exists q. by split. Qed.
  Lemma J_open q : keeps (openurl w q).
  Proof.
    intros s inp s' r Hs. unfold openurl. destruct (findq w q s inp) as [s1 r1] eqn:E. destruct (J_on_db _ _ _ _ _ Hs E) as [H1 H2].
    destruct r1 as [u rest|e rest| |]; [|intros [= <- <-]; split; [eauto|done]|by intros [= <- <-]..].
    match goal with |- ?x s1 rest = _ → _ => assert (keeps x) as Hk by jj end. apply Hk. eauto.
  Qed.
  Lemma JQ_exec ctx c : (∀ n, c ≠ KSync n) → (∀ u, c ≠ KAddUser u) → (∀ u, c = KPasswd u → ∀ pass, Q pass) → keeps (exec w ctx c).
  Proof.
    intros Hs Ha Hp. destruct c; cbn [exec]; unfold silent, showing; rewrite ?HP;
      try (eapply (hoare_bind _ _ _ (λ _, J)); [|intros ?; by apply hoare_ret]).
    - apply J_passwd. by eapply Hp.
    - by destruct (Ha user).
    - apply J_rekey.
    - apply J_rekeyAll.
    - unfold addNewInterruptible, addNew. jj.
    - unfold rename. jj.
    - apply J_rm.
    - unfold deleteKey, findq. jj.
    - unfold list_cmd. jj.
    - unfold findq. jj.
    - unfold get_cmd, findq. jj.
    - unfold login, findq. jj.
    - unfold set_cmd, findq. jj.
    - unfold edit, findq. jj.
    - apply J_open.
    - unfold addLabels, findq. jj.
    - unfold deleteLabel, findq. jj.
    - unfold listByLabels. jj.
    - unfold show, findq. cbv zeta. jj.
    - by destruct (Hs name).
    - unfold addSyncInterruptible, addSync, addSCPEntry. jj.
    - unfold dump, findq. jj.
    - unfold dumpall. jj.
    - by apply hoare_ret.
    - by apply hoare_ret.
  Qed.
End single.
Definition J (P : prims) (s : session) : Prop := s_readOnly s = false ∧ ∃ pass, single_session P s pass.
Lemma J_exec P w (HP : w_P w = P) (Hr : rand_ok (w_rand w)) ctx c : (∀ n, c ≠ KSync n) → (∀ u, c ≠ KAddUser u) → hoare (J P) (exec w ctx c) (λ _, J P) (J P).
Proof.
  intros Hs Ha. eapply hoare_conseq; [by apply (JQ_exec P (λ _, True) w)|..].
  - intros s [H1 [q H2]]. split; [split; [done|by right]|]. by exists q.
  - intros _ s [[H1 _] (q & _ & H2)]. split; [done|]. by exists q.
  - intros s [[H1 _] (q & _ & H2)]. split; [done|]. by exists q.
Qed.
Lemma J_saves P (U : string → Prop) s e ord riv : prims_ok P → sound U s → J P s → length riv = 40 → ∃ f, saveBlob P e ord (Some riv) s = (s, Ok (Some f)).
Proof.
  intros HP (Htp & _) [Hro (pass & Hm & Hk & Hs & Hp)] Hr.
  assert (∃ b, Save (s_db s) = Ok b) as [b Hb] by (unfold Save, save_guard; rewrite Htp; eexists; done).
  assert (length (s_key s) = 80) as Lk by (rewrite Hk; apply (scrypt_len _ HP)).
  destruct (single_round_trip P (params_single (s_key s) (s_salt s)) riv b (s_key s) (s_salt s) []) as (f & E & _); try done.
  { apply validate_ok. split; [|by left]. unfold sizes_ok. cbn [params_single Keys Salts]. split; [done|]. split; [done|]. split; constructor; auto. }
  { intros H. rewrite H in Lk. done. }
  exists f. unfold saveBlob. rewrite Hro, Hb. unfold makeParams. rewrite Hm. cbn [length Nat.eqb]. unfold mret, M_ret, cryptVersion. rewrite E. cbn [mbind outcome_bind].
  by destruct s.
Qed.
