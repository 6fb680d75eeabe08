(** A store of text stays one: the commands and whole sessions. *)
From Verif Require Import Spec_Main Proof_TxLog Proof_GoStr Proof_Utf8 Proof_Session Proof_Session2 Proof_Session3 Proof_Repl5 Proof_Repl6 Proof_Repl7 Proof_Main.
From Verif Require Export Proof_Text2.
From Coq Require Import Lia.
From stdpp Require Import options.
Import Model_GoStr Proof_Utf8.
#[local] Open Scope nat_scope.

Definition ccl {A} (x : C A) (R : A → Prop) : Prop := ∀ s inp s' r, clean (s_db s) → texts inp → x s inp = (s', r) →
  match r with UOk _ _ | UErr _ _ => clean (s_db s') | _ => True end ∧ told R r.
Lemma ccl_weak {A} (x : C A) (R R' : A → Prop) : (∀ a, R a → R' a) → ccl x R → ccl x R'.
Proof. intros HR H s inp s' r Hs Hi E. destruct (H _ _ _ _ Hs Hi E) as [H1 H2]. split; [done|]. destruct r; cbn in *; try done. destruct H2. auto. Qed.
Lemma ccl_ret {A} (a : A) (R : A → Prop) : R a → ccl (mret a) R.
Proof. intros H s inp s' r Hs Hi [= <- <-]. done. Qed.
Lemma ccl_bind {A B} (x : C A) (f : A → C B) (R : A → Prop) Q : ccl x R → (∀ a, R a → ccl (f a) Q) → ccl (mbind f x) Q.
Proof.
  intros Hx Hf s inp s' r Hs Hi. unfold mbind, C_bind. destruct (x s inp) as [s1 [a rest|e rest| |]] eqn:E; destruct (Hx _ _ _ _ Hs Hi E) as [H1 H2].
  - destruct H2 as [Ha Hr]. by apply Hf.
  - by intros [= <- <-].
  - by intros [= <- <-].
  - by intros [= <- <-].
Qed.
Lemma ccl_ask {A} (f : list input → ui A) R : asks f R → ccl (ask f) R.
Proof. intros H s inp s' r Hs Hi [= <- <-]. split; [by destruct (f inp)|]. by apply H. Qed.
Lemma ccl_try {A} (o : outcome A) (R : A → Prop) : (∀ a, o = Ok a → R a) → ccl (try o) R.
Proof. intros H s inp s' r Hs Hi [= <- <-]. destruct o; cbn; auto. Qed.
Lemma ccl_on {A} (m : M A) R : mcl m R → ccl (on_db m) R.
Proof.
  intros H s inp s' r Hs Hi. unfold on_db. destruct (m (s_db s)) as [d o] eqn:E. destruct (H _ _ _ Hs E) as [H1 H2]. intros [= <- <-]. destruct o; cbn; auto.
Qed.
Lemma ccl_catching {A B} (m : M A) (h : error → option B) k (R : B → Prop) (Q : A → Prop) : mcl m Q → (∀ a, Q a → R (k a)) → (∀ x b, h x = Some b → R b) → ccl (catching m h k) R.
Proof.
  intros H Hk Hh s inp s' r Hs Hi. unfold catching. destruct (m (s_db s)) as [d [a|x|]] eqn:E; destruct (H _ _ _ Hs E) as [H1 H2]; intros [= <- <-]; [cbn; auto| |done].
  destruct (h x) as [b|] eqn:Eb; cbn; [|done]. split; [done|]. split; [by eapply Hh|done].
Qed.
Lemma ccl_state : ccl state (λ s, clean (s_db s)).
Proof. intros s inp s' r Hs Hi [= <- <-]. done. Qed.
Lemma ccl_change f : (∀ s, s_db (f s) = s_db s) → ccl (change f) (λ _, True).
Proof. intros H s inp s' r Hs Hi [= <- <-]. split; [by rewrite H|done]. Qed.
Lemma ccl_within {A} (x : C A) R : ccl x R → ccl (within x) R.
Proof.
  intros H s inp s' r Hs Hi. unfold within. destruct (x (set_db (Begin (s_db s)) s) inp) as [s1 r1] eqn:E.
  assert (clean (Begin (s_db s))) as Hb. { destruct Hs as (H1 & H2 & H3). split; [done|]. split; [done|]. cbn. lia. }
  destruct (H _ _ _ _ (Hb : clean (s_db (set_db (Begin (s_db s)) s))) Hi E) as [H1 H2].
  destruct r1 as [a rest|e rest| |]; [| |by intros [= <- <-]|by intros [= <- <-]].
  - unfold Commit. destruct (_ =? _); [by intros [= <- <-]|]. intros [= <- <-]. split; [|done]. destruct H1 as (H1 & H3 & H4). split; [done|]. split; [done|]. cbn. lia.
  - unfold Rollback. destruct (_ =? _); [by intros [= <- <-]|]. cbv zeta. destruct H1 as (H1 & H3 & H4).
    destruct (_ <? _); unfold slice_upto; cbn [ResetSnapshot db_log db_txpoint]; destruct (_ <=? _); intros [= <- <-]; try done; (split; [|done]); split.
    + intros u b Hu. cbn in Hu. by rewrite lookup_empty in Hu.
    + cbn [set_db s_db db_log db_txpoint vis]. rewrite take_app_le by lia. split; [by apply Forall_take|lia].
    + exact H1.
    + cbn [set_db s_db db_log db_txpoint vis]. rewrite take_app_le by lia. split; [by apply Forall_take|lia].
Qed.
Lemma ccl_interruptible {A} (a : A) (x : C A) (R : A → Prop) : R a → ccl x R → ccl (interruptible a x) R.
Proof.
  intros Ha H s inp s' r Hs Hi. unfold interruptible. destruct (x s inp) as [s1 r1] eqn:E. destruct (H _ _ _ _ Hs Hi E) as [H1 H2].
  destruct r1 as [b rest|e rest| |]; [by intros [= <- <-]| |by intros [= <- <-]..]. destruct e; intros [= <- <-]; done.
Qed.

Section cmds.
  Context (w : world) (Hw : text_world w).
  #[local] Set Default Proof Using "Hw".
  Notation ok := (λ _, True).
  Lemma w_f i : fair (w_env w i). Proof. apply (proj1 Hw). Qed.
  Lemma w_c i : clock_ok (w_env w i). Proof. apply (proj1 Hw). Qed.
  Lemma w_u i : utf8 (e_uuid (w_env w i)). Proof. apply (proj1 Hw). Qed.
  #[local] Hint Resolve w_f w_c w_u : core.
  Lemma ccl_true {A} (x : C A) (R : A → Prop) : ccl x R → ccl x ok. Proof. by apply ccl_weak. Qed.
  Lemma ccl_findq q : ccl (findq w q) utf8.
  Proof. apply ccl_on, mcl_findOne; auto. apply Hw. Qed.
  Lemma ccl_must u : ccl (on_db (MustFind u)) entry_utf8.
  Proof. by apply ccl_on, (mcl_MustFind (w_env w 0)). Qed.
  Lemma ccl_tryany {A} (o : outcome A) : ccl (try o) ok. Proof. by apply ccl_try. Qed.
  Lemma ccl_set_ i j u k v : utf8 u → utf8 k → utf8 v → ccl (on_db (dbSet (w_env w i) j u k v)) ok.
  Proof. intros. apply ccl_on. by apply mcl_set. Qed.
  Lemma ccl_Set_ i j u k v : utf8 u → utf8 k → utf8 v → ccl (on_db (dropping (Set_key (w_env w i) j u k v))) ok.
  Proof. intros. apply ccl_on, mcl_dropping. by apply mcl_Set_key. Qed.
  Ltac nxt := eapply ccl_bind; [|let a := fresh "a" in intros a ?].

  Lemma ccl_passwd i u : ccl (passwd (w_P w) (w_env w i) (w_rand w) u) ok.
  Proof.
    unfold passwd. nxt; [apply ccl_ask, asks_password|]. destruct (String.eqb _ ""); [by apply ccl_ret|]. nxt; [apply ccl_tryany|]. destruct a0 as [key salt].
    nxt; [apply ccl_state|]. eapply (ccl_bind _ _ ok); [destruct (_ || _); [by apply ccl_change|by apply ccl_ret]|]. intros _ _.
    destruct (_ =? _); [by apply ccl_ret|]. nxt; [apply ccl_on; by apply mcl_MustFindUser|]. destruct a1 as [uuid b]. nxt; [apply ccl_tryany|]. destruct a1 as [mkey iv].
    apply ccl_on. by apply mcl_put.
  Qed.
  Lemma ccl_rekey i u : ccl (rekey (w_P w) (w_env w i) (w_rand w) u) ok.
  Proof.
    unfold rekey. cbv zeta. nxt; [apply ccl_state|]. eapply (ccl_bind _ _ ok); [destruct (String.eqb u ""); [by apply ccl_ret|]; eapply ccl_true, ccl_ask, asks_password|]. intros pass _.
    destruct (String.eqb _ ""); [by apply ccl_ret|]. nxt; [apply ccl_tryany|]. destruct a0 as [key salt].
    eapply (ccl_bind _ _ ok); [destruct (String.eqb u ""); [by apply ccl_change|by apply ccl_ret]|]. intros _ _.
    destruct (_ =? _); [by apply ccl_ret|]. nxt; [apply ccl_on; by apply mcl_MustFindUser|]. destruct a0 as [uuid b]. nxt; [apply ccl_tryany|]. destruct a0 as [mkey iv].
    apply ccl_on. by apply mcl_put.
  Qed.
  Lemma ccl_rekey_loop i l : (∀ u n, (u, n) ∈ l → utf8 u) → ∀ n p, ccl (rekey_loop (w_P w) (w_env w i) (w_rand w) n l p) ok.
  Proof.
    induction l as [|[uuid name] l IH]; intros Hl n p; cbn [rekey_loop]; [by apply ccl_ret|].
    nxt; [apply ccl_tryany|]. nxt; [apply ccl_tryany|]. cbv zeta. nxt; [apply ccl_tryany|]. destruct a1 as [key salt]. nxt; [apply ccl_state|].
    eapply (ccl_bind _ _ ok); [destruct (String.eqb _ _); [by apply ccl_change|by apply ccl_ret]|]. intros _ _. nxt; [apply ccl_tryany|]. destruct a2 as [mkey iv].
    nxt; [apply ccl_on; apply mcl_put; auto; apply (Hl uuid name); by left|]. apply IH. intros u' n' H9. apply (Hl u' n'). by right.
  Qed.
  Lemma ccl_rekeyAll i : ccl (rekeyAll (w_P w) (w_env w i) (w_rand w)) ok.
  Proof.
    unfold rekeyAll. nxt; [apply ccl_state|]. destruct (_ =? _); [by apply ccl_ret|]. nxt; [apply ccl_ask, asks_getYesNo|]. destruct (negb _); [by apply ccl_ret|].
    nxt; [apply ccl_tryany|]. destruct a1 as [master ivm]. eapply ccl_bind; [apply ccl_on; by apply mcl_Users|]. intros users Hus. nxt.
    { apply ccl_rekey_loop. intros u n Hin. destruct Hw as (_ & Ho & _). rewrite (Ho _) in Hin. apply elem_of_map_to_list in Hin. by apply (Hus u n). }
    eapply ccl_bind; [by apply ccl_change|]. intros _ _. by apply ccl_ret.
  Qed.
  Lemma ccl_adduser i u : utf8 u → ccl (adduser (w_P w) (w_env w i) (w_rand w) u) ok.
  Proof.
    intros U s inp s' r Hs Hi. unfold adduser. destruct (NewUser (w_env w i) u (s_db s)) as [d o] eqn:E.
    destruct (mcl_New (w_env w i) (w_f i) (w_c i) (w_u i) 0 (userPrefix +:+ u) (utf8_app userPrefix u ltac:(utf8_lit) U) _ _ _ Hs E) as [Hd Ho].
    assert (clean (s_db (set_db d s))) as Hd' by done.
    assert (∀ (f : string → C unit) r, (∀ u, utf8 u → ccl (f u) ok) → mbind f (try o) (set_db d s) inp = (s', r) →
       match r with UOk _ _ | UErr _ _ => clean (s_db s') | _ => True end ∧ told ok r) as Hk.
    { intros f r' Hf Er. eapply (ccl_bind (try o) f utf8); [by apply ccl_try|exact Hf|exact Hd'|exact Hi|exact Er]. }
    assert (∀ (x : string → C unit), (∀ u, utf8 u → ccl (x u) ok) → (match o with Fail ENameNotUnique => (set_db d s, UOk tt inp) | _ => mbind x (try o) (set_db d s) inp end) = (s', r) →
       match r with UOk _ _ | UErr _ _ => clean (s_db s') | _ => True end ∧ told ok r) as Hg.
    { intros x Hx. destruct o as [a|e|]; [by apply Hk| |by apply Hk]. destruct e; try (by apply Hk). by intros [= <- <-]. }
    intros H. eapply Hg; [|destruct o as [a|e|]; [exact H| |exact H]; destruct e; exact H]. clear -Hw. intros uuid Huu. cbv beta.
    nxt; [apply ccl_state|]. eapply (ccl_bind _ _ ok).
    { destruct (_ =? _).
      - destruct (NewMasterKey _ _ _) as [[master ivm]|x|]; (eapply ccl_bind; [by apply ccl_change|]; intros _ _; by apply ccl_ret).
      - nxt; [apply ccl_ask, asks_password|]. nxt; [apply ccl_tryany|]. destruct a1. by apply ccl_ret. }
    intros [[key|] salt] _; [|by apply ccl_ret]. nxt; [apply ccl_state|]. nxt; [apply ccl_tryany|]. destruct a1 as [mkey iv]. apply ccl_on. by apply mcl_put.
  Qed.
  Lemma ccl_addNew n : utf8 n → ccl (addNewInterruptible w n) ok.
  Proof.
    intros N. apply ccl_interruptible; [done|]. apply ccl_within. eapply (ccl_bind _ _ (λ o, ∀ u, o = Some u → utf8 u)).
    { eapply ccl_catching; [by apply mcl_New|by intros a Ha u [= <-]|]. intros x b. destruct x; by intros [= <-]. }
    intros [u|] Hu; [|by apply ccl_ret]. specialize (Hu u eq_refl). nxt; [apply ccl_ask, asks_prompt|]. nxt; [apply ccl_ask, asks_prompt|]. nxt; [apply ccl_ask, asks_password|].
    eapply ccl_bind; [apply ccl_on, mcl_raw_if; auto; utf8_lit|]. intros _ _. eapply ccl_bind; [apply ccl_on, mcl_raw_if; auto; utf8_lit|]. intros _ _.
    eapply ccl_bind; [apply ccl_on, mcl_raw_if; auto; utf8_lit|]. intros _ _. by apply ccl_ret.
  Qed.
  Lemma ccl_rename a b : utf8 b → ccl (rename w a b) ok.
  Proof.
    intros B. unfold rename. eapply ccl_bind; [apply ccl_on; by apply mcl_FindByName|]. intros [[u x]|] Hr; [|by apply ccl_ret]. destruct (String.eqb u ""); [by apply ccl_ret|].
    eapply ccl_catching; [|done|done]. apply mcl_Rename; auto. by apply (Hr u x).
  Qed.
  Lemma ccl_delete i n : ccl (deleteEntry (w_env w i) n) ok.
  Proof.
    unfold deleteEntry. eapply ccl_bind; [apply ccl_on; by apply mcl_FindByName|]. intros [[u x]|] Hr; [|by apply ccl_ret]. destruct (String.eqb u ""); [by apply ccl_ret|].
    nxt; [apply ccl_state|]. nxt; [apply ccl_tryany|]. cbv zeta. eapply (ccl_bind _ _ ok).
    { destruct (_ && _); [|by apply ccl_ret]. nxt; [apply ccl_on; by apply mcl_Users|]. by apply ccl_ret. }
    intros [] _; [by apply ccl_ret|]. nxt; [apply ccl_ask, asks_prompt_end|]. destruct (negb (String.eqb _ n)); [by apply ccl_ret|].
    eapply (ccl_bind _ _ ok); [destruct (_ && _); [by apply ccl_change|by apply ccl_ret]|]. intros _ _. apply ccl_on, mcl_del; auto. by apply (Hr u x).
  Qed.
  Lemma ccl_deleteKey q k : utf8 k → ccl (deleteKey w q k) ok.
  Proof.
    intros K. unfold deleteKey. nxt; [apply ccl_findq|]. destruct (String.eqb _ ""); [by apply ccl_ret|]. nxt; [apply ccl_must|].
    destruct (_ !! k); [|by apply ccl_ret]. eapply ccl_catching; [by apply mcl_DeleteKey|done|done].
  Qed.
  Lemma ccl_list q : ccl (list_cmd w q) ok.
  Proof. unfold list_cmd. nxt; [apply ccl_on; by apply mcl_Search|]. by apply ccl_ret. Qed.
  Lemma ccl_labels ls : ccl (listByLabels w ls) ok.
  Proof. unfold listByLabels. nxt; [apply ccl_on; by apply mcl_SearchLabels|]. by apply ccl_ret. Qed.
  Lemma ccl_get q k i c : ccl (get_cmd w q k i c) ok.
  Proof.
    unfold get_cmd. nxt; [apply ccl_findq|]. destruct (String.eqb _ ""); [by apply ccl_ret|]. nxt; [apply ccl_must|].
    destruct (String.eqb k KeyTwoFactor); [destruct (TwoFactor w _); [destruct (_ =? _); by apply ccl_ret|by apply ccl_ret|apply ccl_tryany]|].
    destruct (String.eqb k KeyUpdated); [nxt; [apply ccl_tryany|]; destruct a1; by apply ccl_ret|]. destruct (_ !! k); by apply ccl_ret.
  Qed.
  Lemma ccl_login q : ccl (login w q) ok.
  Proof.
    unfold login. nxt; [apply ccl_findq|]. destruct (String.eqb _ ""); [by apply ccl_ret|]. nxt; [apply ccl_on, (mcl_Find (w_env w 0)); auto|].
    nxt; [apply ccl_tryany|]. apply ccl_ask. intros inp Hi. by apply asks_login.
  Qed.
  Lemma ccl_set q k v : utf8 k → utf8 v → ccl (set_cmd w q k v) ok.
  Proof.
    intros K V. unfold set_cmd. nxt; [apply ccl_findq|]. destruct (String.eqb _ ""); [by apply ccl_ret|]. destruct (String.eqb k KeyPass); [|destruct (String.eqb k KeyTwoFactor); [|destruct (String.eqb k KeyURL)]].
    - eapply (ccl_bind _ _ utf8); [destruct (_ =? _); [apply ccl_ask, asks_password|by apply ccl_ret]|]. intros v' V'.
      eapply ccl_bind; [by apply ccl_Set_|]. intros _ _. by apply ccl_ret.
    - eapply ccl_catching; [|done|done]. apply mcl_two; auto. apply Hw.
    - destruct (w_url w v); try by apply ccl_ret. eapply ccl_bind; [by apply ccl_Set_|]. intros _ _. by apply ccl_ret.
    - eapply (ccl_bind _ _ utf8); [destruct (_ =? _); [apply ccl_ask, asks_promptMultiline|by apply ccl_ret]|]. intros v' V'.
      eapply ccl_bind; [by apply ccl_Set_|]. intros _ _. by apply ccl_ret.
  Qed.
  Lemma ccl_edit q k : utf8 k → ccl (edit w q k) ok.
  Proof.
    intros K. unfold edit. nxt; [apply ccl_findq|]. destruct (String.eqb _ ""); [by apply ccl_ret|]. eapply ccl_bind; [apply ccl_must|]. intros b Hb.
    destruct Hw as (_ & _ & _ & He & _). destruct (w_editor w _) as [e|status [new|]] eqn:E; [apply ccl_tryany| |by apply ccl_ret].
    assert (utf8 new) as Hn. { eapply He; [|exact E]. destruct (b !! k) as [v|] eqn:Ev; [by apply (Hb _ _ Ev)|apply utf8_empty]. }
    destruct (negb _); [by apply ccl_ret|]. eapply (ccl_bind _ _ ok); [destruct (_ =? _)|intros _ _; by apply ccl_ret].
    - apply ccl_on, mcl_dropping. by apply mcl_DeleteKey.
    - by apply ccl_Set_.
  Qed.
  Lemma Labels_utf8 b : entry_utf8 b → Forall utf8 (Labels b).
  Proof. intros Hb. unfold Labels. cbv zeta. destruct (String.eqb _ ""); [done|]. by apply (labels_utf8 (w_env w 0)). Qed.
  Lemma ccl_addLabels q : ccl (addLabels w q) ok.
  Proof.
    unfold addLabels. nxt; [apply ccl_findq|]. destruct (String.eqb _ ""); [by apply ccl_ret|]. eapply ccl_bind; [apply ccl_must|]. intros b Hb.
    eapply (ccl_bind _ _ (λ r : list string * bool, Forall utf8 r.1)); [apply ccl_ask; intros inp Hi; apply asks_labels; [done|by apply Labels_utf8]|].
    intros [ls []] Hl; [|by apply ccl_ret]. eapply ccl_bind; [apply ccl_Set_; [done|utf8_lit|apply utf8_join; [utf8_lit|done]]|]. intros _ _.
    nxt; [apply ccl_tryany|]. by apply ccl_ret.
  Qed.
  Lemma ccl_deleteLabel q l : ccl (deleteLabel w q l) ok.
  Proof.
    unfold deleteLabel. nxt; [apply ccl_findq|]. destruct (String.eqb _ ""); [by apply ccl_ret|]. nxt; [apply ccl_must|].
    destruct (label_index _ _ _); [|by apply ccl_ret]. eapply ccl_bind; [apply ccl_on; by apply mcl_RemoveLabel|]. intros _ _. nxt; [apply ccl_tryany|]. by apply ccl_ret.
  Qed.
  Lemma ccl_show q i : ccl (show w q i) ok.
  Proof.
    unfold show. nxt; [apply ccl_findq|]. destruct (String.eqb _ ""); [by apply ccl_ret|]. nxt; [apply ccl_must|]. nxt; [apply ccl_state|]. cbv zeta.
    nxt; [apply ccl_tryany|]. destruct a2; [|by apply ccl_ret]. destruct (_ =? _); [by apply ccl_ret|apply ccl_tryany].
  Qed.
  Lemma ccl_open q : ccl (openurl w q) ok.
  Proof.
    intros s inp s' r Hs Hi. unfold openurl. destruct (findq w q s inp) as [s1 r1] eqn:E. destruct (ccl_findq q _ _ _ _ Hs Hi E) as [H1 H2].
    destruct r1 as [u rest|e rest| |]; [|by intros [= <- <-]..]. destruct H2 as [Hu Hr].
    match goal with |- ?x s1 rest = _ → _ => assert (ccl x ok) as Hx end; [|by apply Hx].
    destruct (String.eqb u ""); [by apply ccl_ret|]. nxt; [apply ccl_must|]. nxt; [apply ccl_tryany|]. destruct (_ =? _); [nxt; [apply ccl_tryany|]; by apply ccl_ret|].
    destruct (w_url w _); by apply ccl_ret.
  Qed.
  Lemma ccl_dump q : ccl (dump w q) ok.
  Proof. unfold dump. nxt; [apply ccl_findq|]. destruct (String.eqb _ ""); [by apply ccl_ret|]. nxt; [apply ccl_must|]. by apply ccl_ret. Qed.
  Lemma ccl_scp u : utf8 u → ccl (addSCPEntry w u) utf8.
  Proof.
    intros U. destruct Hw as (_ & _ & _ & _ & _ & _ & Hs & Hk). unfold addSCPEntry.
    eapply ccl_bind; [apply ccl_ask, asks_getString|]. intros user Hu. eapply ccl_bind; [apply ccl_ask, asks_getString|]. intros host Hh.
    eapply ccl_bind; [apply ccl_ask, asks_port|]. intros port Hp. eapply ccl_bind; [apply ccl_ask, asks_getString|]. intros file Hf.
    eapply ccl_bind; [apply ccl_ask, asks_menu|]. intros choice _. destruct (_ =? _)%Z.
    - eapply ccl_bind; [apply ccl_ask, asks_password|]. intros pass Hpw. apply ccl_ret. apply Hs; try done. by intros x [= <-].
    - eapply (ccl_bind _ _ ok); [|intros _ _; apply ccl_ret; by apply Hs]. destruct (w_sshkey w choice) as [[priv pub]|] eqn:Ek; [|by apply ccl_ret].
      destruct (Hk _ _ _ Ek). eapply ccl_bind; [apply ccl_Set_; [done|utf8_lit|done]|]. intros _ _. destruct (_ =? _)%Z; [apply ccl_Set_; [done|utf8_lit|done]|].
      apply ccl_set_; [done|utf8_lit|done].
  Qed.
  Lemma ccl_addSync k : ccl (addSyncInterruptible w k) ok.
  Proof.
    apply ccl_interruptible; [done|]. unfold addSync. destruct (negb _) eqn:En; [by apply ccl_ret|]. apply ccl_within.
    assert (utf8 (syncPrefix +:+ k)) as Hk.
    { apply negb_false_iff, orb_true_iff in En as [E|E]; apply String.eqb_eq in E as ->; (apply utf8_app; [utf8_lit|utf8_lit]). }
    nxt; [apply ccl_state|]. eapply (ccl_bind _ _ utf8).
    { apply ccl_on. intros d d' o Hd. unfold NewSync. destruct (newsync_loop _ _ _ _ d) as [[d1 o1]|] eqn:E; intros [= <- <-]; [|done]. by eapply mcl_newsync in E. }
    intros u U. eapply (ccl_bind _ _ utf8).
    { destruct (String.eqb k syncFile); [|by apply ccl_scp]. eapply ccl_bind; [apply ccl_ask, asks_getString|]. intros file Hf.
      destruct Hw as (_ & _ & _ & _ & Ha & Hu & _). destruct (w_abs w file) eqn:Ea; [apply ccl_ret; apply Hu; by eapply Ha|by apply ccl_try]. }
    intros url Hu. eapply ccl_bind; [apply ccl_set_; [done|utf8_lit|utf8_lit]|]. intros _ _. eapply ccl_bind; [apply ccl_set_; [done|utf8_lit|done]|]. intros _ _.
    nxt; [apply ccl_on, (mcl_Find (w_env w 0)); auto|]. nxt; [apply ccl_tryany|]. by apply ccl_ret.
  Qed.

  (** what a command was typed with *)
  Definition cmd_utf8 (c : command) : Prop :=
    match c with
    | KAddUser u => utf8 u | KAdd n => utf8 n | KMv _ b => utf8 b | KRmk _ k => utf8 k | KSet _ k v => utf8 k ∧ utf8 v | KEdit _ k => utf8 k | _ => True
    end.
  Lemma ccl_exec ctx c : utf8 ctx → cmd_utf8 c → (∀ n, c = KSync n → ccl (w_sync w n) ok) → ccl (exec w ctx c) (λ r, utf8 r.1).
  Proof.
    intros Hx Hc Hs.
    assert (∀ A (x : C A) c1, utf8 c1 → ccl x ok → ccl (silent c1 x) (λ r, utf8 r.1)) as Hsi by (intros A x c1 H1 H2; unfold silent; eapply ccl_bind; [done|]; intros; by apply ccl_ret).
    assert (∀ x c1, utf8 c1 → ccl x ok → ccl (showing c1 x) (λ r, utf8 r.1)) as Hsh by (intros x c1 H1 H2; unfold showing; eapply ccl_bind; [done|]; intros; by apply ccl_ret).
    destruct c; cbn [exec]; cbn [cmd_utf8] in Hc; try (apply Hsi; [done|]); try (apply Hsh; [done|]).
    - apply ccl_passwd.
    - by apply ccl_adduser.
    - apply ccl_rekey.
    - nxt; [apply ccl_rekeyAll|]. by apply ccl_ret.
    - by apply ccl_addNew.
    - by apply ccl_rename.
    - apply Hsi; [|apply ccl_delete]. destruct (String.eqb _ _); [apply utf8_empty|done].
    - by apply ccl_deleteKey.
    - apply ccl_list.
    - destruct query as [q|]; [|apply ccl_ret, utf8_empty]. nxt; [apply ccl_findq|]. destruct (String.eqb _ ""); [by apply ccl_ret|].
      eapply ccl_bind; [apply ccl_must|]. intros b Hb. eapply (ccl_bind _ _ utf8); [|intros n Hn; by apply ccl_ret].
      apply ccl_try. unfold Name. destruct (b !! KeyName) as [n|] eqn:E; [|done]. intros a' [= <-]. by apply (Hb _ _ E).
    - apply ccl_get.
    - apply ccl_login.
    - destruct Hc. by apply ccl_set.
    - by apply ccl_edit.
    - apply ccl_open.
    - apply ccl_addLabels.
    - apply ccl_deleteLabel.
    - apply ccl_labels.
    - apply ccl_show.
    - by apply Hs.
    - apply ccl_addSync.
    - apply ccl_dump.
    - unfold dumpall. nxt; [apply ccl_state|]. by apply ccl_ret.
    - by apply ccl_ret.
    - by apply ccl_ret.
  Qed.
End cmds.

(** ** Lines of text make commands of text *)
Definition reply_utf8 (r : reply) : Prop := match r with Run c => cmd_utf8 c | _ => True end.
Lemma keyed_utf8 ctx args k : utf8 ctx → Forall utf8 args → (∀ n key r, utf8 n → utf8 key → Forall utf8 r → reply_utf8 (k n key r)) → reply_utf8 (keyed ctx args k).
Proof.
  intros Hx Ha H. unfold keyed. destruct (_ =? _).
  - destruct args as [|n [|key r]]; try done. inversion Ha as [|? ? ? Hb]; subst. inversion Hb; subst. by apply H.
  - destruct args as [|key r]; [done|]. inversion Ha; subst. by apply H.
Qed.
Lemma queried_utf8 ctx args k : (∀ n r, reply_utf8 (k n r)) → reply_utf8 (queried ctx args k).
Proof. intros H. unfold queried. destruct (_ =? _); [destruct args|]; try done; apply H. Qed.
Lemma run_of_utf8 ctx cmd args : utf8 ctx → Forall utf8 args → reply_utf8 (run_of ctx cmd args).
Proof.
  intros Hx Ha. unfold run_of, getCopy, quickCopy.
  assert (∀ (b : bool) x y, reply_utf8 x → reply_utf8 y → reply_utf8 (if b then x else y)) as Hif by (by intros [] ? ?).
  repeat (apply Hif; [|]); try done.
  all: try (apply queried_utf8; intros; done).
  all: try (apply keyed_utf8; [done|done|]; intros n key r Hn Hk Hr; first [done|destruct r; [done|by destruct (Atoi _)]|idtac]).
  all: try (destruct args as [|a [|b r]]; try done; inversion Ha as [|? ? ? Hb]; subst; try done; inversion Hb; subst; done).
  - destruct args as [|? [|? [|? ?]]]; try done. by destruct (Atoi _).
  - destruct args as [|? [|? ?]]; try done. by destruct (Atoi _).
  - destruct args as [|n [|k r]]; try done. inversion Ha as [|? ? ? Hb]; subst. inversion Hb; subst. destruct (_ || _); [done|]. split; [done|]. apply utf8_join; [utf8_lit|done].
  - destruct args as [|k r]; try done. inversion Ha; subst. destruct (_ || _); [done|]. split; [done|]. apply utf8_join; [utf8_lit|done].
Qed.
Lemma parse_utf8 ro ctx line : utf8 ctx → utf8 line → reply_utf8 (parse_line ro ctx line).
Proof.
  intros Hx Hl. apply utf8_TrimSpace in Hl. unfold parse_line. cbv zeta. pose proof (utf8_Fields _ Hl) as Hf.
  destruct (Fields (TrimSpace line)) as [|cmd rest]; [done|]. inversion Hf; subst. destruct (negb _); [done|]. destruct (ro && _); [done|].
  apply run_of_utf8; [done|]. destruct (String.eqb cmd "set"); [|done]. apply Forall_drop. by apply utf8_split_on.
Qed.

Lemma text_kept_ccl {A} (x : C A) : text_kept x ↔ ccl x (λ _, True).
Proof.
  split.
  - intros H s inp s' r Hs Hi E. specialize (H _ _ _ _ Hs (proj1 (texts_typed _) Hi) E). destruct r; cbn; try done; destruct H as [H1 H2]; apply texts_typed in H2; auto.
  - intros H s inp s' r Hs Hi E. destruct (H _ _ _ _ Hs (proj2 (texts_typed _) Hi) E) as [H1 H2]. destruct r; cbn in *; try done; (split; [done|]; apply texts_typed).
    + apply H2.
    + apply H2.
Qed.
Lemma loop_text w : (∀ n, text_world (w n)) → ∀ f n ctx shown s inp s' o r, clean (s_db s) → utf8 ctx → texts inp →
  (∀ n k, text_kept (w_sync (w n) k)) ∨ never_typed "sync" inp →
  run_loop f w n ctx shown s inp = (s', o, r) → match r with UOk _ _ | UErr _ _ => clean (s_db s') | _ => True end.
Proof.
  intros Hw f. induction f as [|f IH]; intros n ctx shown s inp s' o r Hs Hx Hi Hn; [by intros [= <- <- <-]|].
  destruct inp as [|[line|e] rest]; cbn [run_loop]; [by intros [= <- <- <-]| |by destruct e; intros [= <- <- <-]].
  inversion Hi as [|? ? Hl Hr]; subst. assert ((∀ n k, text_kept (w_sync (w n) k)) ∨ never_typed "sync" rest) as Hn'.
  { destruct Hn as [Hn|Hn]; [by left|right]. eapply never_suffix; [by apply suffix_cons_r|done]. }
  pose proof (parse_utf8 (s_readOnly s) ctx line Hx Hl) as Hc.
  destruct (parse_line (s_readOnly s) ctx line) as [| | | |c] eqn:Ep; [by apply IH..|].
  destruct (never_cmd (ILine line :: rest) line (s_readOnly s) ctx c) as (Hc1 & _); [by left|done|].
  assert ((match exec (w n) ctx c s rest with
            | (s', UOk (ctx', o) rest') => run_loop f w (S n) ctx' (shown ++ o) s' rest'
            | (s', UErr e rest') => (s', shown, UErr e rest')
            | (s', UPanic) => (s', shown, UPanic)
            | (s', UWait) => (s', shown, UWait)
            end) = (s', o, r) → match r with UOk _ _ | UErr _ _ => clean (s_db s') | _ => True end) as Hrun.
  { destruct (exec (w n) ctx c s rest) as [s2 r2] eqn:E.
    assert (match r2 with UOk _ _ | UErr _ _ => clean (s_db s2) | _ => True end ∧ told (λ r, utf8 r.1) r2) as [H1 H2].
    { eapply (ccl_exec (w n) (Hw n)); [exact Hx|exact Hc| |exact Hs|exact Hr|exact E]. intros k ->.
      destruct Hn as [Hn|Hn]; [apply text_kept_ccl, Hn|by destruct (Hc1 Hn k)]. }
    destruct r2 as [[ctx' o'] rest2|e2 rest2| |].
    - destruct H2 as [Hx' Hr']. apply IH; [done|done|done|]. destruct Hn as [Hn|Hn]; [by left|right]. 
      eapply never_suffix; [|eapply (never_suffix "sync" (ILine line :: rest)); [by apply suffix_cons_r|exact Hn]]. eapply exec_suffix; [|exact E]. intros k ->. by destruct (Hc1 Hn k).
    - by intros [= <- <- <-].
    - by intros [= <- <- <-].
    - by intros [= <- <- <-]. }
  destruct c; try exact Hrun. by intros [= <- <- <-].
Qed.
Lemma repl_text w s inp s' o r : (∀ n, text_world (w n)) → clean (s_db s) → typed_text inp → (∀ n k, text_kept (w_sync (w n) k)) ∨ never_typed "sync" inp →
  run_repl w s inp = (s', o, r) → match r with UOk _ _ | UErr _ _ => clean (s_db s') | _ => True end.
Proof. intros Hw Hs Hi Hn. apply loop_text; try done; [apply utf8_empty|by apply texts_typed]. Qed.
Lemma good_clean d m : good d m → clean d.
Proof.
  intros ([[Hv Hr] Hm] & Ht & Hu & Hi & _). split; [|split].
  - eapply replays_from_utf8; [exact Hr| |]; [by apply Forall_take|]. intros ? ? H. by rewrite lookup_empty in H.
  - rewrite Forall_forall in Hu, Hi. apply Forall_forall. intros t Hin. split; [by apply Hu|by apply Hi].
  - rewrite Ht. lia.
Qed.
Lemma clean_good d m : clean d → holds d m → db_txpoint d = 0 → (Z.of_nat (length (vis (db_log d))) < 2 ^ 64)%Z → good d m.
Proof.
  intros (_ & Hl & _) Hh Ht Hn. rewrite Forall_forall in Hl. split; [done|]. split; [done|]. split; [|split; [|done]]; apply Forall_forall; intros t Hin; by apply Hl.
Qed.
Lemma main_text P (Q U : string → Prop) w w0 w1 e ord riv s inp s' o rest m0 :
  (∀ n, w_P (w n) = P) → (∀ n, rand_ok (w_rand (w n))) → (∀ n, tame U (w n)) → (∀ i j, drawn (w i) = drawn (w j) → i = j) → (∀ n, text_world (w n)) →
  prims_ok P → length riv = 40 → sound U s → JQ P Q s → entered Q inp → good (s_db s) m0 → typed_text inp →
  run_repl w s inp = (s', o, UOk tt rest) → (Z.of_nat (length (vis (db_log (s_db s')))) < 2 ^ 64)%Z →
  ∃ f pass m, Q pass ∧ session_main P false w0 w1 w e ord (Some riv) s inp = (s', UOk (Some f) rest) ∧ log_grew s s' ∧ good (s_db s') m ∧
    ∀ sp rsalt r, ∃ s2, loadBlob P (Found (mk_slice f sp)) None rsalt (ILine pass :: r) = UOk s2 r ∧
      same_store (s_db s') (s_db s2) ∧ good (s_db s2) m.
Proof.
  intros HP Hr Ht Hd Hw HPo Hl Hs HJ Hi Hg Hty E Hn.
  assert (clean (s_db s')) as Hc by (apply (repl_text w s inp s' o (UOk tt rest)); try done; [by eapply good_clean|right; apply Hi]).
  assert (sound (upto U w 0) s) as Hs0 by (eapply sound_mono; [|done]; by left).
  destruct (loop_whole P Q U w HP Hr Ht Hd _ _ _ _ _ _ _ _ _ Hs0 HJ Hi E) as (k & Hx & _). destruct (Hx _ eq_refl) as ((Htp & (m & Hm & _) & _) & _).
  pose proof (clean_good _ _ Hc Hm Htp Hn) as Hgm.
  destruct (main_whole P Q U w HP Hr Ht Hd w0 w1 e ord riv s inp s' o rest) as (f & p & Hq & Hmain & Hlg & Hy); try done.
  exists f, p, m. split; [done|]. split; [done|]. split; [done|]. split; [done|]. by apply Hy.
Qed.
Lemma exec_text w ctx c : text_world w → utf8 ctx → cmd_utf8 c → (∀ n, c = KSync n → text_kept (w_sync w n)) → text_kept (exec w ctx c).
Proof.
  intros Hw Hx Hc Hs. apply text_kept_ccl. eapply ccl_weak; [|apply (ccl_exec w Hw ctx c Hx Hc)]; [done|]. intros n E. by apply text_kept_ccl, Hs.
Qed.
Lemma typed_here ctx c line ro : utf8 ctx → utf8 line → parse_line ro ctx line = Run c → cmd_utf8 c.
Proof. intros Hx Hl E. pose proof (parse_utf8 ro ctx line Hx Hl) as H. by rewrite E in H. Qed.
