(** Proofs about whole sessions of any mode. *)
From Verif Require Import Spec_PassGen Spec_Multi Proof_TxLog Proof_Blobs Proof_PassGen Proof_Crypt5 Proof_Session Proof_Session3 Proof_Session5 Proof_Session6 Proof_Repl7 Proof_Lines Proof_Main.
From Coq Require Import Lia.
From stdpp Require Import options.
Import Model_GoStr.
#[local] Open Scope nat_scope.

(** ** What commands keep, for conditions that do not concern the store *)
Section kept.
  Context (J : session → Prop) (Jdb : ∀ d s, J s → J (set_db d s)).
  #[local] Set Default Proof Using "All".
  Notation keeps x := (hoare J x (λ _, J) J).
  Lemma K_on_db {A} (m : M A) : keeps (on_db m).
  Proof. intros s inp s' r Hs. unfold on_db. destruct (m (s_db s)) as [d o]. intros [= <- <-]. split; intros; by apply Jdb. Qed.
  Lemma K_catching {A B} (m : M A) (h : error → option B) k : keeps (catching m h k).
  Proof. intros s inp s' r Hs. unfold catching. destruct (m (s_db s)) as [d [| |]]; intros [= <- <-]; split; intros; by apply Jdb. Qed.
  Lemma K_state : keeps state.
  Proof. intros s inp s' r Hs [= <- <-]. done. Qed.
  Lemma K_change f : (∀ s, J s → J (f s)) → keeps (change f).
  Proof. intros H s inp s' r Hs [= <- <-]. split; intros; by apply H. Qed.
  Lemma K_within {A} (x : C A) : keeps x → keeps (within x).
  Proof.
    intros H s inp s' r Hs. unfold within. destruct (x (set_db (Begin (s_db s)) s) inp) as [s1 [a rest|e rest| |]] eqn:E.
    - destruct (H _ _ _ _ (Jdb _ _ Hs) E) as [H1 _]. specialize (H1 _ _ eq_refl). destruct (Commit (s_db s1)); intros [= <- <-]; split; intros; first [done|by apply Jdb].
    - destruct (H _ _ _ _ (Jdb _ _ Hs) E) as [_ H1]. specialize (H1 _ _ eq_refl). destruct (Rollback (s_db s1)); intros [= <- <-]; split; intros; first [done|by apply Jdb].
    - by intros [= <- <-].
    - by intros [= <- <-].
  Qed.
  Lemma K_interruptible {A} (a : A) (x : C A) : keeps x → keeps (interruptible a x).
  Proof.
    intros H s inp s' r Hs. unfold interruptible. destruct (x s inp) as [s1 r1] eqn:E. destruct (H _ _ _ _ Hs E) as [H1 H2].
    destruct r1 as [b rest|e rest| |]; [intros [= <- <-]; split; [eauto|done]| |by intros [= <- <-]..].
    specialize (H2 _ _ eq_refl). destruct e; intros [= <- <-]; done.
  Qed.
  Ltac kk := repeat (first
    [ by apply hoare_ret | apply hoare_ask | apply hoare_try | apply K_state | apply K_on_db | apply K_catching | apply K_within | apply K_interruptible | apply hoare_if
    | eapply (hoare_bind _ _ _ (λ _, J)); [|intros ?; cbv beta]
    | match goal with |- hoare _ (match ?x with _ => _ end) _ _ => destruct x end ]).
  Context (w : world).
  Lemma K_open q : keeps (openurl w q).
  Proof.
    intros s inp s' r Hs. unfold openurl. destruct (findq w q s inp) as [s1 r1] eqn:E. destruct (K_on_db _ _ _ _ _ Hs E) as [H1 H2].
    destruct r1 as [u rest|e rest| |]; [|intros [= <- <-]; split; [eauto|done]|by intros [= <- <-]..].
    match goal with |- ?x s1 rest = _ → _ => assert (keeps x) as Hk by kk end. apply Hk. eauto.
  Qed.
  (** the commands that may change more than the store *)
  Definition changing (c : command) : Prop :=
    match c with KPasswd _ | KAddUser _ | KRekey _ | KRekeyAll | KRm _ | KSync _ => True | _ => False end.
  Lemma K_exec ctx c : ¬ changing c → keeps (exec w ctx c).
  Proof.
    intros Hc. destruct c; cbn [exec]; unfold silent, showing; try (by destruct (Hc Logic.I)); clear Hc;
      try (eapply (hoare_bind _ _ _ (λ _, J)); [|intros ?; by apply hoare_ret]).
    - unfold addNewInterruptible, addNew. kk.
    - unfold rename. kk.
    - unfold deleteKey, findq. kk.
    - unfold list_cmd. kk.
    - unfold findq. kk.
    - unfold get_cmd, findq. kk.
    - unfold login, findq. kk.
    - unfold set_cmd, findq. kk.
    - unfold edit, findq. kk.
    - apply K_open.
    - unfold addLabels, findq. kk.
    - unfold deleteLabel, findq. kk.
    - unfold listByLabels. kk.
    - unfold show, findq. cbv zeta. kk.
    - unfold addSyncInterruptible, addSync, addSCPEntry. kk.
    - unfold dump, findq. kk.
    - unfold dumpall. kk.
    - by apply hoare_ret.
    - by apply hoare_ret.
  Qed.
End kept.

(** ** The keys of a session *)
Section keys.
  Context (P : prims) (Q : string → Prop) (w : world) (HP : w_P w = P) (Hr : rand_ok (w_rand w)).
  #[local] Set Default Proof Using "All".
  Notation J := (keyed_session P Q).
  Notation keeps x := (hoare J x (λ _, J) J).
  Lemma keyed_db d s : J s → J (set_db d s). Proof. done. Qed.
  Ltac kk := repeat (first
    [ by apply hoare_ret | apply hoare_ask | apply hoare_try | apply (K_state J keyed_db) | apply (K_on_db J keyed_db) | apply hoare_if
    | eapply (hoare_bind _ _ _ (λ _, J)); [|intros ?; cbv beta]
    | match goal with |- hoare _ (match ?x with _ => _ end) _ _ => destruct x end ]).
  Lemma keyed_creds pass n key salt s : DeriveKey P cryptVersion (str_bytes pass) (r_salt (w_rand w) n) = Ok (key, salt) → pass ≠ "" → Q pass → J s → J (set_creds pass key salt s).
  Proof.
    intros E Hp HQ [[H1 _] [_ Hm]]. split; [split; [done|by right]|]. split; [|done]. exists pass. split; [done|]. destruct (r_salt (w_rand w) n) as [b|] eqn:Eb; [|done]. rewrite DeriveKey_ok in E.
    injection E as <- <-. split; [done|]. split; [|done]. by apply (proj1 Hr n).
  Qed.
  Lemma keyed_derive {A} pass n (f : bytes * bytes → C A) : (∀ key salt, DeriveKey P cryptVersion (str_bytes pass) (r_salt (w_rand w) n) = Ok (key, salt) → keeps (f (key, salt))) →
    keeps (ks ← try (DeriveKey P cryptVersion (str_bytes pass) (r_salt (w_rand w) n)); f ks).
  Proof.
    intros H. destruct (DeriveKey P cryptVersion (str_bytes pass) (r_salt (w_rand w) n)) as [[key salt]|e|].
    - apply hoare_try_ok. by apply H.
    - intros s inp s' r Hs [= <- <-]. done.
    - intros s inp s' r Hs [= <- <-]. done.
  Qed.
  Lemma keyed_passwd e u : (∀ pass, Q pass) → keeps (passwd P e (w_rand w) u).
  Proof.
    intros HQ. unfold passwd. eapply (hoare_bind _ _ _ (λ _, J)); [apply hoare_ask|]. intros pass. cbv beta. destruct (String.eqb pass "") eqn:Ep; [by apply hoare_ret|].
    apply String.eqb_neq in Ep. apply keyed_derive. intros key salt E. kk. apply K_change; [apply keyed_db|]. intros s9. by eapply keyed_creds.
  Qed.
  Lemma keyed_rekey e u : keeps (rekey P e (w_rand w) u).
  Proof.
    unfold rekey. cbv zeta. eapply (hoare_bind _ _ _ (λ s0 s, J s ∧ s0 = s)); [apply hoare_state|]. intros s0. cbv beta.
    eapply (hoare_conseq _ (λ s, J s ∧ (s_pass s0 = "" ∨ Q (s_pass s0))) _ _ (λ _, J) _ J); [|by intros s [H ->]; split; [done|apply H]|done|done].
    apply hoare_know. intros Hq.
    destruct (String.eqb u "") eqn:Eu.
    - apply (hoare_bind _ _ _ (λ p s, J s ∧ (p = "" ∨ Q p))); [apply hoare_ret; by intros|]. intros pass. cbv beta. apply hoare_know. intros Hq'.
      destruct (String.eqb pass "") eqn:Ep; [by apply hoare_ret|]. apply String.eqb_neq in Ep. destruct Hq' as [->|Hq']; [done|].
      apply keyed_derive. intros key salt E. kk. apply K_change; [apply keyed_db|]. intros s9. by eapply keyed_creds.
    - eapply (hoare_bind _ _ _ (λ _, J)); [apply hoare_ask|]. intros pass. cbv beta.
      destruct (String.eqb pass "") eqn:Ep; [by apply hoare_ret|]. apply String.eqb_neq in Ep.
      apply keyed_derive. intros key salt E. kk.
  Qed.
  Lemma new_master master ivm : NewMasterKey cryptVersion (r_master (w_rand w)) (r_ivm (w_rand w)) = Ok (master, ivm) → length master = 80 ∧ length ivm = 40.
  Proof.
    unfold NewMasterKey, cryptVersion. change (getVersion 1) with (Ok v1). cbn [mbind outcome_bind]. destruct Hr as (_ & _ & H1 & H2).
    destruct (r_master (w_rand w)) as [a|] eqn:Ea; [|done]. destruct (r_ivm (w_rand w)) as [b|] eqn:Eb; [|done]. intros [= <- <-]. split; [by apply H1|by apply H2].
  Qed.
  Lemma keyed_master master ivm s : length master = 80 → length ivm = 40 → J s → J (set_master master ivm s).
  Proof. intros H1 H2 (H3 & H4 & _). split; [done|]. split; [done|]. by right. Qed.
  Lemma keyed_no_master ivm s : J s → J (set_master [] ivm s).
  Proof. intros (H3 & H4 & _). split; [done|]. split; [done|]. by left. Qed.
  Lemma keyed_pw n pw : genPassword (r_pw (w_rand w) n) 32 no_class = Ok pw → bytes_string pw ≠ "".
  Proof.
    intros Hp. assert (no_overflow 32 no_class) as Ho by (split; vm_compute; done). pose proof (genPassword_cases (r_pw (w_rand w) n) 32 no_class Ho) as Hg. cbv zeta in Hg. rewrite Hp in Hg.
    destruct (decide _) as [|Hge]; [done|]. destruct (r_pw (w_rand w) n) as [ent|]; [|done]. destruct (decide _) as [?|]; [done|].
    destruct (decide _); [done|]. destruct Hg as (pw' & Heq & (Hlen & _)). injection Heq as <-. destruct pw; [cbn in Hlen; lia|done].
  Qed.
  Lemma keyed_loop e : (∀ pass, Q pass) → ∀ l n printed, keeps (rekey_loop P e (w_rand w) n l printed).
  Proof.
    intros HQ. induction l as [|[u x] l IH]; intros n printed; cbn [rekey_loop]; [by apply hoare_ret|]. cbv zeta.
    eapply (hoare_bind _ _ _ (λ _, J)); [apply hoare_try|]. intros username. cbv beta.
    destruct (genPassword (r_pw (w_rand w) n) 32 no_class) as [pw|?|] eqn:Epw; [|intros s inp s' r Hs [= <- <-]; done|intros s inp s' r Hs [= <- <-]; done].
    apply hoare_try_ok. apply keyed_pw in Epw. apply keyed_derive. intros key salt E. eapply (hoare_bind _ _ _ (λ _, J)); [apply (K_state J keyed_db)|]. intros s0. cbv beta.
    eapply (hoare_bind _ _ _ (λ _, J)); [|intros _; cbv beta; kk; apply IH].
    apply hoare_if; [|by apply hoare_ret]. apply K_change; [apply keyed_db|]. intros s9. by eapply keyed_creds.
  Qed.
  Lemma keyed_rekeyAll e : (∀ pass, Q pass) → keeps (rekeyAll P e (w_rand w)).
  Proof.
    intros HQ. unfold rekeyAll. eapply (hoare_bind _ _ _ (λ _, J)); [apply (K_state J keyed_db)|]. intros s0. cbv beta. destruct (_ =? 0); [by apply hoare_ret|].
    eapply (hoare_bind _ _ _ (λ _, J)); [apply hoare_ask|]. intros yes. cbv beta. destruct (negb yes); [by apply hoare_ret|].
    destruct (NewMasterKey _ _ _) as [[master ivm]|x|] eqn:E; [|intros s inp s' r Hs [= <- <-]; done|intros s inp s' r Hs [= <- <-]; done].
    apply hoare_try_ok. apply new_master in E as [L1 L2]. kk; [by apply keyed_loop|]. apply K_change; [apply keyed_db|]. intros s9. by apply keyed_master.
  Qed.
  Lemma keyed_adduser e u : keeps (adduser P e (w_rand w) u).
  Proof.
    intros s inp s' r Hs. unfold adduser. destruct (NewUser e u (s_db s)) as [d o].
    match goal with |- context [ (mbind ?f (try o)) (set_db d s) inp ] => set (x := mbind f (try o)) end.
    assert (keeps x) as Hx.
    { subst x. eapply (hoare_bind _ _ _ (λ _, J)); [apply hoare_try|]. intros uuid. cbv beta. eapply (hoare_bind _ _ _ (λ _, J)); [apply (K_state J keyed_db)|]. intros s0. cbv beta.
      eapply (hoare_bind _ _ _ (λ _, J)); [|intros [[key|] salt]; cbv beta; kk].
      apply hoare_if.
      - destruct (NewMasterKey _ _ _) as [[master ivm]|x|] eqn:E.
        + apply new_master in E as [L1 L2]. kk. apply K_change; [apply keyed_db|]. intros s9 H9. change (J (set_master master ivm s9)). by apply keyed_master.
        + kk. apply K_change; [apply keyed_db|]. intros s9 H9. by apply keyed_no_master.
        + kk. apply K_change; [apply keyed_db|]. intros s9 H9. by apply keyed_no_master.
      - kk. }
    assert (J (set_db d s)) as Hd by done.
    destruct o as [uuid|[]|]; try (intros E; exact (Hx _ _ _ _ Hd E)). by intros [= <- <-].
  Qed.
  Lemma keyed_rm e n : keeps (deleteEntry e n).
  Proof. unfold deleteEntry. kk. apply K_change; [apply keyed_db|]. intros s9. apply keyed_no_master. Qed.
  Lemma keyed_exec ctx c : (∀ n, c ≠ KSync n) → (∀ u, c = KPasswd u ∨ c = KRekeyAll → ∀ pass, Q pass) → keeps (exec w ctx c).
  Proof.
    intros Hs Hp. destruct c; try (apply (K_exec J keyed_db w); by intros []); cbn [exec]; unfold silent, showing; rewrite ?HP;
      try (eapply (hoare_bind _ _ _ (λ _, J)); [|intros ?; by apply hoare_ret]).
    - apply keyed_passwd. eapply Hp. by left.
    - apply keyed_adduser.
    - apply keyed_rekey.
    - apply keyed_rekeyAll. apply (Hp ""). by right.
    - apply keyed_rm.
    - by destruct (Hs name).
  Qed.
End keys.

(** ** The loop, for any such condition *)
Section any.
  Context (P : prims) (U : string → Prop) (w : nat → world).
  Context (HP : ∀ n, w_P (w n) = P) (Hr : ∀ n, rand_ok (w_rand (w n))).
  Context (Ht : ∀ n, tame U (w n)) (Hd : ∀ i j, drawn (w i) = drawn (w j) → i = j).
  Context (J : session → Prop) (G : command → Prop).
  Context (Gsync : ∀ k, ¬ G (KSync k)) (HJ : ∀ n ctx c, G c → hoare J (exec (w n) ctx c) (λ _, J) J).
  #[local] Set Default Proof Using "All".
  Definition only (inp : list input) : Prop := ∀ line ro ctx c, ILine line ∈ inp → parse_line ro ctx line = Run c → G c.
  Lemma only_suffix inp rest : rest `suffix_of` inp → only inp → only rest.
  Proof. intros [p ->] H line ro ctx c Hl. apply H. apply elem_of_app. by right. Qed.
  Lemma loop_any f : ∀ n ctx shown s inp s' o r, sound (upto U w n) s → J s → only inp → run_loop f w n ctx shown s inp = (s', o, r) →
    ∃ k, (∀ rest, r = UOk tt rest → sound (upto U w k) s' ∧ J s' ∧ log_grew s s').
  Proof.
    induction f as [|f IH]; intros n ctx shown s inp s' o r Hs HJs Hi; [intros [= <- <- <-]; by exists n|].
    assert (log_grew s s) as Hg by (exists []; by rewrite app_nil_r).
    destruct inp as [|[line|e] rest]; cbn [run_loop]; [intros [= <- <- <-]; by exists n| |destruct e; intros [= <- <- <-]; exists n; by intros].
    assert (only rest) as Hir by (eapply only_suffix; [|done]; by apply suffix_cons_r).
    destruct (parse_line (s_readOnly s) ctx line) as [| | | |c] eqn:Ep; [by apply IH..|].
    assert (G c) as Hc by (eapply Hi; [by left|exact Ep]).
    assert (∀ k, c ≠ KSync k) as Hc1 by (intros k ->; by apply (Gsync k)).
    assert ((match exec (w n) ctx c s rest with
              | (s', UOk (ctx', o) rest') => run_loop f w (S n) ctx' (shown ++ o) s' rest'
              | (s', UErr e rest') => (s', shown, UErr e rest')
              | (s', UPanic) => (s', shown, UPanic)
              | (s', UWait) => (s', shown, UWait)
              end) = (s', o, r) → ∃ k, (∀ rest, r = UOk tt rest → sound (upto U w k) s' ∧ J s' ∧ log_grew s s')) as Hrun.
    { destruct (exec (w n) ctx c s rest) as [s2 r2] eqn:E. destruct (exec_whole P (λ _, True) U w HP Hr Ht Hd n ctx c s rest s2 r2 Hs Hc1 E) as [Ha _].
      destruct (HJ n ctx c Hc s rest s2 r2 HJs E) as [Ja _].
      destruct r2 as [[ctx' o'] rest2|e2 rest2| |]; [|by intros [= <- <- <-]; exists n..].
      destruct (Ha _ _ eq_refl) as [Hs2 Hg2]. specialize (Ja _ _ eq_refl). assert (only rest2) as Hi2'.
      { eapply only_suffix; [|done]. eapply exec_suffix; [|done]. intros k Ek. by destruct (Hc1 k). }
      intros H. destruct (IH _ _ _ _ _ _ _ _ Hs2 Ja Hi2' H) as (k & Hx).
      exists k. intros rest3 ->. destruct (Hx _ eq_refl) as (?&?&?). split; [done|]. split; [done|]. eapply log_grew_trans; try done; done. }
    destruct c; try exact Hrun. intros [= <- <- <-]. exists n. by intros.
  Qed.
End any.

(** ** The users *)
Lemma same_row m m' x u salt iv mkey : same_users m m' → has_row m x u salt iv mkey → has_row m' x u salt iv mkey.
Proof. intros Hs (b & Hb & Hn & H). exists b. rewrite (Hs u x) by (left; by exists b). done. Qed.
Lemma same_users_sym m m' : same_users m m' → same_users m' m.
Proof. intros H u x Hc. symmetry. apply (H u x). tauto. Qed.
Lemma same_called m m' u x : same_users m m' → called m u ("user/" +:+ x) → called m' u ("user/" +:+ x).
Proof. intros Hs (b & Hb & Hn). exists b. split; [|done]. rewrite (Hs u x); [done|]. left. by exists b. Qed.
Lemma same_is_user m m' x : same_users m m' → is_user m x → is_user m' x.
Proof. intros Hs [u Hu]. exists u. by eapply same_called. Qed.
Lemma same_table P m m' : same_users m m' → table_ok P m → table_ok P m'.
Proof.
  intros Hs (H1 & H2 & [x Hx] & H4). pose proof (same_users_sym _ _ Hs) as Hs'. split; [|split; [|split]].
  - intros u y Hc. destruct (H1 u y) as (Hu & Hy & salt & iv & mkey & Hrow & Hl); [by eapply same_called|]. split; [done|]. split; [done|]. exists salt, iv, mkey. split; [by eapply same_row|done].
  - intros a b Ha Hb. apply H2; by eapply same_is_user.
  - exists x. by eapply same_is_user.
  - intros l Hl Ha. apply H4; [done|]. intros y Hy. eapply same_is_user; [exact Hs'|]. by apply Ha.
Qed.
Lemma same_unlocks P m m' master x pass : same_users m m' → unlocks P m master x pass → unlocks P m' master x pass.
Proof. intros Hs (Hp & u & salt & iv & mkey & Hrow & E). split; [done|]. exists u, salt, iv, mkey. split; [by eapply same_row|done]. Qed.

Lemma spare_step m m1 t m2 : tx_step m1 t m2 → spares m t →
  (∀ u x, called m u ("user/" +:+ x) → m1 !! u = m !! u) → (∀ u x, called m1 u ("user/" +:+ x) → called m u ("user/" +:+ x)) →
  (∀ u x, called m u ("user/" +:+ x) → m2 !! u = m !! u) ∧ (∀ u x, called m2 u ("user/" +:+ x) → called m u ("user/" +:+ x)).
Proof.
  intros H [Hs Hn] H1 H2. destruct H as [m1 ti u k v Hu|m1 ti u k v e Hu|m1 ti u k v e Hu|m1 ti u k v e Hu|]; cbn [tx_uuid tx_key tx_value] in *; try by split.
  - split; intros u' x Hc; (destruct (decide (u = u')) as [<-|Hne]; [|]).
    + by destruct (Hs x).
    + rewrite lookup_insert_ne by done. by eapply H1.
    + destruct Hc as (b & Hb & Hx). rewrite lookup_insert in Hb. injection Hb as <-. by rewrite lookup_empty in Hx.
    + apply H2. destruct Hc as (b & Hb & Hx). rewrite lookup_insert_ne in Hb by done. by exists b.
  - split; intros u' x Hc; (destruct (decide (u = u')) as [<-|Hne]; [|]).
    + by destruct (Hs x).
    + rewrite lookup_delete_ne by done. by eapply H1.
    + destruct Hc as (b & Hb & Hx). by rewrite lookup_delete in Hb.
    + apply H2. destruct Hc as (b & Hb & Hx). rewrite lookup_delete_ne in Hb by done. by exists b.
  - split; intros u' x Hc; (destruct (decide (u = u')) as [<-|Hne]; [|]).
    + by destruct (Hs x).
    + rewrite lookup_insert_ne by done. by eapply H1.
    + destruct Hc as (b & Hb & Hx). rewrite lookup_insert in Hb. injection Hb as <-. destruct (decide (k = "name")) as [->|Hk].
      * rewrite lookup_insert in Hx. injection Hx as ->. by destruct (Hn x).
      * rewrite lookup_insert_ne in Hx by done. apply H2. by exists e.
    + apply H2. destruct Hc as (b & Hb & Hx). rewrite lookup_insert_ne in Hb by done. by exists b.
  - split; intros u' x Hc; (destruct (decide (u = u')) as [<-|Hne]; [|]).
    + by destruct (Hs x).
    + rewrite lookup_insert_ne by done. by eapply H1.
    + destruct Hc as (b & Hb & Hx). rewrite lookup_insert in Hb. injection Hb as <-. apply lookup_delete_Some in Hx as [_ Hx]. apply H2. by exists e.
    + apply H2. destruct Hc as (b & Hb & Hx). rewrite lookup_insert_ne in Hb by done. by exists b.
Qed.
Lemma spare_users d d' m m' l : holds d m → holds d' m' → vis (db_log d') = vis (db_log d) ++ l → Forall (spares m) l → same_users m m'.
Proof.
  intros [_ H1] [_ H2] E Hl. rewrite E in H2. apply replays_from_app in H2 as (m0 & H0 & H2). rewrite (replays_det _ _ _ H0 H1) in H2. clear H0 E H1.
  assert (∀ m1, replays_from m1 l m' → (∀ u x, called m u ("user/" +:+ x) → m1 !! u = m !! u) → (∀ u x, called m1 u ("user/" +:+ x) → called m u ("user/" +:+ x)) →
    (∀ u x, called m u ("user/" +:+ x) → m' !! u = m !! u) ∧ (∀ u x, called m' u ("user/" +:+ x) → called m u ("user/" +:+ x))) as Hind.
  { clear H2. intros m1 H. induction H as [m1|m1 t m2 l m3 Ht H IH]; [done|]. apply Forall_cons in Hl as [Hl1 Hl2]. intros Ha Hb.
    destruct (spare_step _ _ _ _ Ht Hl1 Ha Hb) as [Hc Hd]. by apply IH. }
  destruct (Hind m H2) as [Ha Hb]; [done..|]. intros u x [Hc|Hc]; [by eapply Ha|]. eapply Ha, Hb, Hc.
Qed.

(** ** Saving *)
Lemma no_auto w0 s inp : auto_sync false w0 s inp = (s, UOk tt inp).
Proof. unfold auto_sync. rewrite (C_ok _ _ _ _ s s inp) by done. rewrite andb_false_r. done. Qed.
Lemma main_saves P w0 w1 w e ord riv s inp s' o rest s2 f : run_repl w s inp = (s', o, UOk tt rest) → saveBlob P e ord riv s' = (s2, Ok (Some f)) →
  session_main P false w0 w1 w e ord riv s inp = (s2, UOk (Some f) rest).
Proof. intros E Ef. unfold session_main. rewrite no_auto, E. cbn [andb]. rewrite no_auto, Ef. done. Qed.

(** ** Which words make the changing commands *)
Lemma changing_word ro ctx line c : parse_line ro ctx line = Run c → changing c → ∃ cmd, head (Fields (TrimSpace line)) = Some cmd ∧ cmd ∈ changing_words.
Proof.
  intros E Hc. destruct (Fields (TrimSpace line)) as [|cmd rest] eqn:Ef.
  { unfold parse_line in E. by rewrite Ef in E. }
  apply (parse_means _ _ _ _ _ _ Ef) in E as [Hm _]. exists cmd. split; [done|]. clear Ef.
  destruct Hm; try done; unfold changing_words; rewrite !elem_of_cons; tauto.
Qed.

Section whole.
  Context (P : prims) (U : string → Prop) (w : nat → world).
  Context (HP : ∀ n, w_P (w n) = P) (Hr : ∀ n, rand_ok (w_rand (w n))).
  Context (Ht : ∀ n, tame U (w n)) (Hd : ∀ i j, drawn (w i) = drawn (w j) → i = j).
  #[local] Set Default Proof Using "All".
  Lemma repl_any (J : session → Prop) (G : command → Prop) s inp s' o rest : (∀ k, ¬ G (KSync k)) → (∀ n ctx c, G c → hoare J (exec (w n) ctx c) (λ _, J) J) →
    sound U s → J s → only G inp → run_repl w s inp = (s', o, UOk tt rest) → ∃ k, sound (upto U w k) s' ∧ J s' ∧ log_grew s s'.
  Proof.
    intros Hg HJ Hs HJs Hi E. assert (sound (upto U w 0) s) as Hs0 by (eapply sound_mono; [|done]; by left).
    destruct (loop_any P U w HP Hr Ht Hd J G Hg HJ _ _ _ _ _ _ _ _ _ Hs0 HJs Hi E) as (k & H). exists k. by eapply H.
  Qed.
  Lemma serves_end k s' m : sound (upto U w k) s' → good (s_db s') m → table_ok P m → length (s_master s') = 80 → length (s_ivm s') = 40 →
    s_key s' = [] ∨ length (s_key s') = 80 → serves P s' m.
  Proof.
    intros (_ & (m0 & Hm0 & Hw) & _) Hm Ht0 H1 H2 H3. assert (m0 = m) as -> by exact (holds_det _ _ _ Hm0 (proj1 Hm)).
    split; [done|]. split; [done|]. split; [done|]. split; [done|]. split; [done|]. split; [done|]. apply Hw.
  Qed.
  Lemma saved_multi w0 w1 e ord riv s inp s' o rest m x pass : prims_ok P → length riv = 40 → fair e → fair_results ord →
    run_repl w s inp = (s', o, UOk tt rest) → serves P s' m → s_readOnly s' = false → unlocks P m (s_master s') x pass →
    ∃ f s2, session_main P false w0 w1 w e ord (Some riv) s inp = (s2, UOk (Some f) rest) ∧ vis (db_log (s_db s2)) = vis (db_log (s_db s')) ∧
      ∀ sp rsalt r, ∃ s3, loadBlob P (Found (mk_slice f sp)) None rsalt (ILine x :: ILine pass :: r) = UOk s3 r ∧
        same_store (s_db s') (s_db s3) ∧ serves P s3 m ∧ s_user s3 = x.
  Proof.
    intros HPo Hl He Ho E Hs Hro Hu.
    destruct (multi_reopen P s' x pass m e ord (Some riv) [] None [] HPo Hs He Ho Hro Hu) as (f & s2 & s3 & Ef & Hv & _); [by intros b [= <-]|].
    exists f, s2. split; [by eapply main_saves|]. split; [done|]. intros sp rsalt r.
    destruct (multi_reopen P s' x pass m e ord (Some riv) sp rsalt r HPo Hs He Ho Hro Hu) as (f' & s2' & s4 & Ef' & _ & El & H1 & H2 & _ & _ & _ & _ & H3 & _); [by intros b [= <-]|].
    rewrite Ef in Ef'. injection Ef' as <- <-. by exists s4.
  Qed.
  Lemma any_saved w0 w1 e ord riv s inp s' o rest : prims_ok P → length riv = 40 → fair e → fair_results ord →
    sound U s → keyed_session P (λ _, True) s → never_typed "sync" inp → run_repl w s inp = (s', o, UOk tt rest) →
    log_grew s s' ∧
    (s_master s' = [] → ∃ f pass, session_main P false w0 w1 w e ord (Some riv) s inp = (s', UOk (Some f) rest) ∧
      ∀ m, good (s_db s') m → ∀ sp rsalt r, ∃ s2, loadBlob P (Found (mk_slice f sp)) None rsalt (ILine pass :: r) = UOk s2 r ∧
        same_store (s_db s') (s_db s2) ∧ good (s_db s2) m) ∧
    (s_master s' ≠ [] → ∀ m, good (s_db s') m → table_ok P m → ∀ x pass, unlocks P m (s_master s') x pass →
      ∃ f s2, session_main P false w0 w1 w e ord (Some riv) s inp = (s2, UOk (Some f) rest) ∧ vis (db_log (s_db s2)) = vis (db_log (s_db s')) ∧
        ∀ sp rsalt r, ∃ s3, loadBlob P (Found (mk_slice f sp)) None rsalt (ILine x :: ILine pass :: r) = UOk s3 r ∧
          same_store (s_db s') (s_db s3) ∧ serves P s3 m ∧ s_user s3 = x).
  Proof.
    intros HPo Hl He Ho Hs HJ Hn E.
    destruct (repl_any (keyed_session P (λ _, True)) (λ c, ∀ k, c ≠ KSync k) s inp s' o rest) as (k & Hs' & HJ' & Hg); try done.
    { intros k Hk. by destruct (Hk k). }
    { intros n ctx c Hc. by apply (keyed_exec P (λ _, True) (w n) (HP n) (Hr n)). }
    { intros line ro ctx c Hin Ep. by apply (proj1 (never_cmd inp line ro ctx c Hin Ep)). }
    destruct HJ' as ([Hro _] & (pass & _ & Hss) & Hm). split; [done|]. split.
    - intros H0. assert (single_session P s' pass) as Hsi by (by split).
      destruct (J_saves P _ s' e ord riv HPo Hs') as [f Ef]; [split; [done|by exists pass]|done|].
      exists f, pass. split; [by eapply main_saves|]. intros m Hm' sp rsalt r.
      destruct (single_reopen P s' pass m e ord riv sp rsalt r HPo Hm' Hro Hsi Hl) as (f2 & s2 & Ef2 & El & H1 & H2 & _).
      rewrite Ef in Ef2. injection Ef2 as ->. by exists s2.
    - intros H0 m Hm' Ht' x pass' Hu. destruct Hm as [?|[L1 L2]]; [done|].
      eapply saved_multi; try done. eapply serves_end; try done. right. destruct Hss as (-> & _). apply (scrypt_len _ HPo).
  Qed.
  Lemma users_saved w0 w1 e ord riv s m inp s' o rest : prims_ok P → length riv = 40 → fair e → fair_results ord →
    sound U s → serves P s m → s_readOnly s = false → (∀ cmd, cmd ∈ changing_words → never_typed cmd inp) →
    run_repl w s inp = (s', o, UOk tt rest) →
    ∀ m', good (s_db s') m' → same_users m m' → ∀ x pass, unlocks P m (s_master s) x pass →
    ∃ f s2, session_main P false w0 w1 w e ord (Some riv) s inp = (s2, UOk (Some f) rest) ∧ vis (db_log (s_db s2)) = vis (db_log (s_db s')) ∧ log_grew s s' ∧
      ∀ sp rsalt r, ∃ s3, loadBlob P (Found (mk_slice f sp)) None rsalt (ILine x :: ILine pass :: r) = UOk s3 r ∧
        same_store (s_db s') (s_db s3) ∧ serves P s3 m' ∧ s_user s3 = x.
  Proof.
    intros HPo Hl He Ho Hs (Hgd & _ & L1 & L2 & L3 & Htb & _) Hro Hn E m' Hm' Hsu x pass Hu.
    set (J := λ s0, s_master s0 = s_master s ∧ s_ivm s0 = s_ivm s ∧ s_key s0 = s_key s ∧ s_readOnly s0 = s_readOnly s).
    destruct (repl_any J (λ c, ¬ changing c) s inp s' o rest) as (k & Hs' & (J1 & J2 & J3 & J4) & Hg); try done.
    { intros k Hk. by apply Hk. }
    { intros n ctx c Hc. apply (K_exec J); [|done]. by intros. }
    { intros line ro ctx c Hin Ep Hc. destruct (changing_word _ _ _ _ Ep Hc) as (cmd & Hh & Hcw). by apply (Hn cmd Hcw line Hin). }
    destruct (saved_multi w0 w1 e ord riv s inp s' o rest m' x pass) as (f & s2 & H1 & H2 & H3); try done.
    - eapply serves_end; try done; [by eapply same_table|congruence..|]. by rewrite J3.
    - congruence.
    - rewrite J1. by eapply same_unlocks.
    - by exists f, s2.
  Qed.
End whole.
