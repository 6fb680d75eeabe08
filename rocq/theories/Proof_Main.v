(** Proofs about the command loop as a whole. *)
From Verif Require Import Spec_Main Spec_Lines Proof_Lines Proof_TxLog Proof_GoStr Proof_Session Proof_Session3 Proof_Session5 Proof_Session6 Proof_Repl5 Proof_Repl6 Proof_Repl7.
From Coq Require Import Lia.
From stdpp Require Import options.
Import Model_GoStr.
#[local] Open Scope nat_scope.
#[local] Set Default Proof Using "All".

(** ** Input is read in order *)
Lemma in_order_ok {A} (a : A) inp : in_order (UOk a inp) inp. Proof. unfold in_order. reflexivity. Qed.
Lemma in_order_err {A} e inp : in_order (UErr e inp : ui A) inp. Proof. unfold in_order. reflexivity. Qed.
#[local] Hint Resolve in_order_ok in_order_err : core.
Lemma in_order_trans {A} (x : ui A) inp inp' : in_order x inp' → inp' `suffix_of` inp → in_order x inp.
Proof. unfold in_order. destruct x; try done; intros; by etrans. Qed.
Lemma in_order_cons {A} (x : ui A) i inp : in_order x inp → in_order x (i :: inp).
Proof. intros H. eapply in_order_trans; [done|]. by apply suffix_cons_r. Qed.
Lemma in_order_bind {A B} (x : ui A) (f : A → list input → ui B) inp : in_order x inp → (∀ a r, in_order (f a r) r) → in_order (ubind x f) inp.
Proof. intros H Hf. destruct x as [a r|e r| |]; [|done|done|done]. cbn [ubind]. eapply in_order_trans; [apply Hf|done]. Qed.
Lemma in_order_outcome {A} (o : outcome A) inp : in_order (of_outcome o inp) inp.
Proof. destruct o; cbn; done. Qed.
Ltac rd_cons := repeat first [done | apply suffix_cons_r; done | apply in_order_cons | match goal with |- in_order (if ?b then _ else _) _ => destruct b end].
Lemma rd_prompt inp : in_order (prompt inp) inp.
Proof. destruct inp as [|[l|e] inp]; [done| |]; cbn; by apply suffix_cons_r. Qed.
Lemma rd_prompt_end inp : in_order (prompt_end inp) inp.
Proof. destruct inp as [|[l|e] inp]; [done| |]; cbn; [by apply suffix_cons_r|]. destruct e; by apply suffix_cons_r. Qed.
Lemma rd_yesno inp : in_order (getYesNo inp) inp.
Proof. induction inp as [|[l|e] inp IH]; [done| |by apply suffix_cons_r]. cbn [getYesNo]. destruct (yes_word l); [by apply suffix_cons_r|]. destruct (no_word l); [by apply suffix_cons_r|]. by apply in_order_cons. Qed.
Lemma rd_string inp : in_order (getString inp) inp.
Proof. induction inp as [|[l|e] inp IH]; [done| |by apply suffix_cons_r]. cbn [getString]. destruct (_ =? _); [by apply in_order_cons|by apply suffix_cons_r]. Qed.
Lemma rd_port inp : in_order (askPort inp) inp.
Proof. induction inp as [|[l|e] inp IH]; [done| |by apply suffix_cons_r]. cbn [askPort]. destruct (_ =? _); [by apply suffix_cons_r|]. destruct (Atoi l); [by apply suffix_cons_r|by apply in_order_cons..]. Qed.
Lemma rd_menu n inp : in_order (getMenuChoice n inp) inp.
Proof.
  induction inp as [|[l|e] inp IH]; [done| |by apply suffix_cons_r]. cbn [getMenuChoice]. destruct (Atoi l) as [i| |]; cbv zeta; [|by apply in_order_cons..].
  destruct ((wrap64 (i - 1) <? 0)%Z || (Z.of_nat n <=? wrap64 (i - 1))%Z); [by apply in_order_cons|by apply suffix_cons_r].
Qed.
Lemma rd_multiline inp : ∀ lines b, in_order (multiline lines b inp) inp.
Proof.
  induction inp as [|[l|e] inp IH]; intros lines b; [done| |]; cbn [multiline].
  - destruct (String.eqb l "."); [by apply suffix_cons_r|]. destruct (_ =? _).
    + destruct b; [by apply suffix_cons_r|apply in_order_cons, IH].
    + apply in_order_cons, IH.
  - destruct (decide (e = EEnd)); by apply suffix_cons_r.
Qed.
Lemma rd_labels up inp : ∀ l b, in_order (labels_loop up l b inp) inp.
Proof.
  induction inp as [|[x|e] inp IH]; intros l b; [done| |]; cbn [labels_loop].
  - destruct (_ || _); [by apply suffix_cons_r|]. destruct (validateLabel _ _ _); apply in_order_cons, IH.
  - destruct (decide (e = EEnd)); by apply suffix_cons_r.
Qed.
Lemma rd_login l : ∀ inp, in_order (login_loop l inp) inp.
Proof.
  induction l as [|[k v] l IH]; intros inp; cbn [login_loop]; [done|]. destruct l as [|p l]; [done|].
  apply in_order_bind; [apply rd_prompt|]. intros _ r. apply in_order_bind; [apply IH|]. done.
Qed.
Lemma rd_gp ents : ∀ n inp, length inp ≤ n → ∀ calls len c pw regen tr, in_order (gp_loop ents calls len c pw regen tr inp) inp.
Proof.
  induction n as [|n IH]; intros inp Hn calls len c pw regen tr; (destruct inp as [|i inp]; cbn [gp_loop]; [destruct (gp_top _ _ _ _ _ _) as [[[??]?]|?|]; done|]); [cbn in Hn; lia|].
  cbn in Hn. assert (∀ calls len c pw regen tr, in_order (gp_loop ents calls len c pw regen tr inp) inp) as IH1 by (apply IH; lia).
  destruct (gp_top _ _ _ _ _ _) as [[[pw1 calls1] ev]|?|]; [|done|done]. cbv zeta. destruct i as [choice|e]; [|by apply suffix_cons_r].
  destruct (String.eqb choice ""); [apply in_order_cons, IH1|]. destruct (String.eqb choice "y"); [by apply suffix_cons_r|].
  destruct (String.eqb choice "m").
  { apply in_order_cons. destruct inp as [|[a|e] inp]; [done| |by apply suffix_cons_r]. apply in_order_cons.
    destruct inp as [|[b|e] inp]; [done| |by apply suffix_cons_r]. destruct (String.eqb a b); [by apply suffix_cons_r|]. apply in_order_cons. apply IH. cbn in Hn. lia. }
  destruct (String.eqb choice "?"); [apply in_order_cons, IH1|]. destruct (Fields choice) as [|k args]; [done|].
  destruct (String.eqb k "c"); [apply in_order_cons, IH1|]. destruct (set_class _ _ _); [apply in_order_cons, IH1|].
  destruct (Atoi choice); apply in_order_cons, IH1.
Qed.
Lemma rd_password r inp : in_order (newPassword r inp) inp.
Proof. unfold newPassword, getPassword. apply in_order_bind; [by eapply rd_gp|]. by intros [a b] ?. Qed.

Lemma reads_ret {A} (a : A) : reads (mret a). Proof. by intros s inp s' r [= <- <-]. Qed.
Lemma reads_try {A} (o : outcome A) : reads (try o). Proof. intros s inp s' r [= <- <-]. apply in_order_outcome. Qed.
Lemma reads_ask {A} (f : list input → ui A) : (∀ inp, in_order (f inp) inp) → reads (ask f). Proof. intros H s inp s' r [= <- <-]. apply H. Qed.
Lemma reads_state : reads state. Proof. by intros s inp s' r [= <- <-]. Qed.
Lemma reads_change f : reads (change f). Proof. by intros s inp s' r [= <- <-]. Qed.
Lemma reads_on_db {A} (m : M A) : reads (on_db m).
Proof. intros s inp s' r. unfold on_db. destruct (m (s_db s)) as [d o]. intros [= <- <-]. apply in_order_outcome. Qed.
Lemma reads_catching {A B} (m : M A) (h : error → option B) k : reads (catching m h k).
Proof. intros s inp s' r. unfold catching. destruct (m (s_db s)) as [d [|e|]]; intros [= <- <-]; try done. by destruct (h e). Qed.
Lemma reads_bind {A B} (x : C A) (f : A → C B) : reads x → (∀ a, reads (f a)) → reads (mbind f x).
Proof.
  intros Hx Hf s inp s' r. unfold mbind, C_bind. destruct (x s inp) as [s1 [a rest|e rest| |]] eqn:E; [|intros [= <- <-]; exact (Hx _ _ _ _ E)|by intros [= <- <-]..].
  intros H. eapply in_order_trans; [by eapply Hf|]. exact (Hx _ _ _ _ E).
Qed.
Lemma reads_within {A} (x : C A) : reads x → reads (within x).
Proof.
  intros H s inp s' r. unfold within. destruct (x _ inp) as [s1 [a rest|e rest| |]] eqn:E; [| |by intros [= <- <-]..]; apply H in E.
  - destruct (Commit _); intros [= <- <-]; done.
  - destruct (Rollback _); intros [= <- <-]; done.
Qed.
Lemma reads_interruptible {A} (a : A) (x : C A) : reads x → reads (interruptible a x).
Proof.
  intros H s inp s' r. unfold interruptible. destruct (x s inp) as [s1 r1] eqn:E. apply H in E. destruct r1 as [b rest|e rest| |]; [|destruct e|..]; intros [= <- <-]; done.
Qed.
Lemma reads_if {A} (b : bool) (x y : C A) : reads x → reads y → reads (if b then x else y). Proof. by destruct b. Qed.
Ltac rr := repeat (first
  [ apply reads_ret | apply reads_try | apply reads_state | apply reads_change | apply reads_on_db | apply reads_catching | apply reads_within | apply reads_interruptible | apply reads_if
  | apply reads_ask; intros ?; first [apply rd_prompt | apply rd_prompt_end | apply rd_yesno | apply rd_string | apply rd_port | apply rd_menu | apply rd_multiline | apply rd_labels | apply rd_login | apply rd_password]
  | apply reads_bind; [|intros ?; cbv beta]
  | match goal with |- reads (match ?x with _ => _ end) => destruct x end ]).

Lemma reads_rekey_loop P e r l : ∀ n printed, reads (rekey_loop P e r n l printed).
Proof. induction l as [|[u x] l IH]; intros n printed; cbn [rekey_loop]; [apply reads_ret|]. cbv zeta. rr. apply IH. Qed.
Lemma reads_adduser P e r x : reads (adduser P e r x).
Proof.
  intros s inp s' o. unfold adduser. destruct (NewUser e x (s_db s)) as [d q].
  destruct q as [a|er|]; [|destruct er|]; try (by intros [= <- <-]);
    match goal with |- ?x (set_db d s) inp = _ → _ => assert (reads x) as H by rr; apply H end.
Qed.
Lemma reads_open w q : reads (openurl w q).
Proof.
  intros s inp s' r. unfold openurl. destruct (findq w q s inp) as [s1 r1] eqn:E. apply reads_on_db in E.
  destruct r1 as [u rest|e rest| |]; [|by intros [= <- <-]..].
  match goal with |- ?x s1 rest = _ → _ => assert (reads x) as Hk by rr end. intros H. apply Hk in H. by eapply in_order_trans.
Qed.
Lemma reads_exec w ctx c : (∀ n, c = KSync n → reads (w_sync w n)) → reads (exec w ctx c).
Proof.
  intros Hs. destruct c; cbn [exec]; unfold silent, showing; try (apply reads_bind; [|intros ?; apply reads_ret]).
  - unfold passwd. rr.
  - apply reads_adduser.
  - unfold rekey. cbv zeta. rr.
  - unfold rekeyAll. rr. apply reads_rekey_loop.
  - unfold addNewInterruptible, addNew. rr.
  - unfold rename. rr.
  - unfold deleteEntry. cbv zeta. rr.
  - unfold deleteKey, findq. rr.
  - unfold list_cmd. rr.
  - unfold findq. rr.
  - unfold get_cmd, findq. rr.
  - unfold login, findq. rr.
  - unfold set_cmd, findq. rr.
  - unfold edit, findq. rr.
  - apply reads_open.
  - unfold addLabels, findq. rr.
  - unfold deleteLabel, findq. rr.
  - unfold listByLabels. rr.
  - unfold show, findq. cbv zeta. rr.
  - by apply Hs.
  - unfold addSyncInterruptible, addSync, addSCPEntry. rr.
  - unfold dump, findq. rr.
  - unfold dumpall. rr.
  - apply reads_ret.
  - apply reads_ret.
Qed.

(** ** The loop and its turns *)
Definition runs (r : reply) : option command := match r with Run c => Some c | _ => None end.
Lemma loop_nothing f w n ctx shown s line rest : (∀ c, parse_line (s_readOnly s) ctx line ≠ Run c) →
  run_loop (S f) w n ctx shown s (ILine line :: rest) = run_loop f w n ctx shown s rest.
Proof. intros H. cbn [run_loop]. destruct (parse_line (s_readOnly s) ctx line) as [| | | |c]; try done. by destruct (H c). Qed.
Lemma loop_crash f w n ctx shown s line rest c s' : parse_line (s_readOnly s) ctx line = Run c → c ≠ KExit →
  exec (w n) ctx c s rest = (s', UPanic) → run_loop (S f) w n ctx shown s (ILine line :: rest) = (s', shown, UPanic).
Proof. intros Hp Hc E. cbn [run_loop]. rewrite Hp. destruct c; rewrite ?E; done. Qed.
Lemma loop_wait f w n ctx shown s line rest c s' : parse_line (s_readOnly s) ctx line = Run c → c ≠ KExit →
  exec (w n) ctx c s rest = (s', UWait) → run_loop (S f) w n ctx shown s (ILine line :: rest) = (s', shown, UWait).
Proof. intros Hp Hc E. cbn [run_loop]. rewrite Hp. destruct c; rewrite ?E; done. Qed.
Lemma loop_exit f w n ctx shown s line rest : parse_line (s_readOnly s) ctx line = Run KExit →
  run_loop (S f) w n ctx shown s (ILine line :: rest) = (s, shown, UOk tt rest).
Proof. intros Hp. cbn [run_loop]. by rewrite Hp. Qed.
Lemma loop_broken f w n ctx shown s e rest : e ≠ EEnd → run_loop (S f) w n ctx shown s (IErr e :: rest) = (s, shown, UErr e rest).
Proof. intros H. cbn [run_loop]. by destruct e. Qed.

Lemma exec_suffix w ctx c s inp s' a rest : (∀ n, c = KSync n → reads (w_sync w n)) → exec w ctx c s inp = (s', UOk a rest) → rest `suffix_of` inp.
Proof. intros Hs E. exact (reads_exec w ctx c Hs _ _ _ _ E). Qed.

Lemma turns_loop w n ctx s inp o s' r : (∀ n k, reads (w_sync (w n) k)) → turns w n ctx s inp o s' r →
  ∀ f shown, length inp < f → run_loop f w n ctx shown s inp = (s', shown ++ o, r).
Proof.
  intros Hw H. induction H; intros f shown Hf; (destruct f as [|f]; [lia|]); cbn [length] in Hf; rewrite ?app_nil_r.
  - done.
  - done.
  - by apply loop_broken.
  - by apply loop_exit.
  - rewrite loop_nothing by done. apply IHturns. lia.
  - erewrite loop_step by done. rewrite IHturns; [by rewrite app_assoc|].
    match goal with E : exec _ _ _ _ _ = _ |- _ => apply exec_suffix in E as [p ->]; [|by intros; apply Hw] end. rewrite app_length in Hf. lia.
  - by eapply loop_err.
  - by eapply loop_crash.
  - by eapply loop_wait.
Qed.
Lemma loop_turns w : (∀ n k, reads (w_sync (w n) k)) → ∀ f n ctx shown s inp s' o r, length inp < f → run_loop f w n ctx shown s inp = (s', o, r) →
  ∃ o', o = shown ++ o' ∧ turns w n ctx s inp o' s' r.
Proof.
  intros Hw f. induction f as [|f IH]; intros n ctx shown s inp s' o r Hf; [lia|].
  destruct inp as [|[line|e] rest].
  - intros [= <- <- <-]. exists []. rewrite app_nil_r. split; [done|constructor].
  - cbn [length] in Hf. destruct (runs (parse_line (s_readOnly s) ctx line)) as [c|] eqn:Er.
    + assert (parse_line (s_readOnly s) ctx line = Run c) as Hp by (by destruct (parse_line (s_readOnly s) ctx line); try done; injection Er as ->).
      assert (c = KExit ∨ c ≠ KExit) as [-> |Hc] by (destruct c; by (left; reflexivity) || by (right; discriminate)).
      { rewrite loop_exit by done. intros [= <- <- <-]. exists []. rewrite app_nil_r. split; [done|by constructor]. }
      destruct (exec (w n) ctx c s rest) as [s1 [[ctx1 o1] rest1|e rest1| |]] eqn:E.
      * erewrite loop_step by done. intros H. apply IH in H as (o' & -> & H).
        { exists (o1 ++ o'). rewrite app_assoc. split; [done|]. by eapply turn_done. }
        apply exec_suffix in E as [p ->]; [|by intros; apply Hw]. rewrite app_length in Hf. lia.
      * erewrite loop_err by done. intros [= <- <- <-]. exists []. rewrite app_nil_r. split; [done|]. by eapply turn_failed.
      * erewrite loop_crash by done. intros [= <- <- <-]. exists []. rewrite app_nil_r. split; [done|]. by eapply turn_crashed.
      * erewrite loop_wait by done. intros [= <- <- <-]. exists []. rewrite app_nil_r. split; [done|]. by eapply turn_waiting.
    + assert (∀ c, parse_line (s_readOnly s) ctx line ≠ Run c) as Hp by (by destruct (parse_line (s_readOnly s) ctx line)).
      rewrite loop_nothing by done. intros H. apply IH in H as (o' & -> & H); [|lia]. exists o'. split; [done|by constructor].
  - intros H. exists []. rewrite app_nil_r. assert (e = EEnd ∨ e ≠ EEnd) as [-> |He] by (destruct e; by (left; reflexivity) || by (right; discriminate)).
    + injection H as <- <- <-. split; [done|constructor].
    + rewrite loop_broken in H by done. injection H as <- <- <-. split; [done|by constructor].
Qed.
Lemma repl_turns w s inp s' o r : (∀ n k, reads (w_sync (w n) k)) → run_repl w s inp = (s', o, r) ↔ turns w 0 "" s inp o s' r.
Proof.
  intros Hw. split.
  - intros H. apply loop_turns in H as (o' & -> & H); [done|done|lia].
  - intros H. apply (turns_loop _ _ _ _ _ _ _ _ Hw H). lia.
Qed.
Lemma turns_det w n ctx s inp o1 s1 r1 o2 s2 r2 : (∀ n k, reads (w_sync (w n) k)) →
  turns w n ctx s inp o1 s1 r1 → turns w n ctx s inp o2 s2 r2 → o1 = o2 ∧ s1 = s2 ∧ r1 = r2.
Proof.
  intros Hw H1 H2. apply (turns_loop _ _ _ _ _ _ _ _ Hw) with (f := S (length inp)) (shown := []) in H1; [|lia].
  apply (turns_loop _ _ _ _ _ _ _ _ Hw) with (f := S (length inp)) (shown := []) in H2; [|lia]. rewrite H1 in H2. by injection H2 as -> -> ->.
Qed.
Lemma turns_reads w n ctx s inp o s' r : (∀ n k, reads (w_sync (w n) k)) → turns w n ctx s inp o s' r → in_order r inp.
Proof.
  intros Hw H. induction H; try done; try by apply suffix_cons_r.
  - by apply in_order_cons.
  - apply in_order_cons. eapply in_order_trans; [done|]. eapply exec_suffix; [|done]. by intros; apply Hw.
  - apply in_order_cons. match goal with E : exec _ _ _ _ _ = _ |- _ => apply reads_exec in E; [exact E|by intros; apply Hw] end.
Qed.

Lemma turns_end_well w n ctx s inp o s' rest : (∀ n k, reads (w_sync (w n) k)) → turns w n ctx s inp o s' (UOk tt rest) →
  ∃ before, inp = before ++ IErr EEnd :: rest ∨ ∃ line, inp = before ++ ILine line :: rest ∧ ∃ words, Fields (TrimSpace line) = "exit" :: words.
Proof.
  intros Hw H. remember (UOk tt rest) as r eqn:Er. revert Er. induction H; intros Er; try done.
  - injection Er as ->. exists []. by left.
  - injection Er as ->. exists []. right. exists line. split; [done|]. destruct (Fields (TrimSpace line)) as [|cmd words] eqn:Ef.
    { unfold parse_line in H. by rewrite Ef in H. }
    destruct (proj1 (parse_means _ _ _ _ _ _ Ef) H) as [Hm _]. exists words. f_equal. clear -Hm. by inversion Hm.
  - destruct (IHturns Er) as (before & [->|(l & -> & Hl)]); exists (ILine line :: before); [by left|right]. by exists l.
  - assert (rest1 `suffix_of` rest0) as [p ->] by (eapply exec_suffix; [|done]; by intros; apply Hw).
    destruct (IHturns Er) as (before & [->|(l & -> & Hl)]); exists (ILine line :: p ++ before); [left|right; exists l; split; [|done]]; cbn [app]; by rewrite <- app_assoc.
Qed.

(** ** Which lines make which commands *)
Definition from_word (cmd : string) (r : reply) : Prop :=
  match r with Run (KSync _) => cmd = "sync" | Run (KAddUser _) => cmd = "adduser" | Run (KPasswd _) => cmd = "passwd" | _ => True end.
Lemma word_if cmd b (x y : reply) : (b = true → from_word cmd x) → from_word cmd y → from_word cmd (if b then x else y).
Proof. destruct b; auto. Qed.
Lemma word_keyed cmd ctx args k : (∀ n key r, from_word cmd (k n key r)) → from_word cmd (keyed ctx args k).
Proof. intros H. unfold keyed. destruct (_ =? _); [destruct args as [|? [|? ?]]|destruct args]; try done; apply H. Qed.
Lemma word_queried cmd ctx args k : (∀ n r, from_word cmd (k n r)) → from_word cmd (queried ctx args k).
Proof. intros H. unfold queried. destruct (_ =? _); [destruct args|]; try done; apply H. Qed.
Lemma run_of_word ctx cmd args : from_word cmd (run_of ctx cmd args).
Proof.
  unfold run_of, getCopy, quickCopy.
  repeat (apply word_if; [intros Hb; first [apply String.eqb_eq in Hb; subst cmd|idtac]|]); try done.
  all: try (destruct args as [|? [|? ?]]; done).
  all: try (apply word_keyed; intros ? ? r; first [done|destruct r; [done|by destruct (Atoi _)]|by destruct (_ || _)]).
  all: try (apply word_queried; intros; done).
  all: destruct args as [|? [|? ?]]; try done; by destruct (_ || _).
Qed.
Lemma parse_word ro ctx line c : parse_line ro ctx line = Run c → ∃ cmd rest, Fields (TrimSpace line) = cmd :: rest ∧ from_word cmd (Run c).
Proof.
  unfold parse_line. destruct (Fields (TrimSpace line)) as [|cmd rest]; [done|]. cbv zeta. destruct (negb _); [done|]. destruct (ro && _); [done|].
  intros E. exists cmd, rest. split; [done|]. rewrite <- E. apply run_of_word.
Qed.
Lemma never_cmd inp line ro ctx c : ILine line ∈ inp → parse_line ro ctx line = Run c →
  (never_typed "sync" inp → ∀ n, c ≠ KSync n) ∧ (never_typed "adduser" inp → ∀ u, c ≠ KAddUser u) ∧ (never_typed "passwd" inp → ∀ u, c ≠ KPasswd u).
Proof.
  intros Hin Hp. apply parse_word in Hp as (cmd & rest & E & H).
  split; [|split]; intros Hn ? ->; cbn in H; apply (Hn line Hin); rewrite E; cbn; by f_equal.
Qed.
Lemma never_suffix cmd inp rest : rest `suffix_of` inp → never_typed cmd inp → never_typed cmd rest.
Proof. intros [p ->] H line Hl. apply H. apply elem_of_app. by right. Qed.

(** ** A whole single-user session *)
Section whole.
  Context (P : prims) (Q : string → Prop) (U : string → Prop) (w : nat → world).
  Context (HP : ∀ n, w_P (w n) = P) (Hr : ∀ n, rand_ok (w_rand (w n))).
  Context (Ht : ∀ n, tame U (w n)) (Hd : ∀ i j, drawn (w i) = drawn (w j) → i = j).
  Lemma tame_upto n : tame (upto U w n) (w n).
  Proof. destruct (Ht n) as (H1 & H2 & H3). split; [done|]. split; [done|]. intros [Hu|(i & Hi & E)]; [done|]. apply (Hd n i) in E. lia. Qed.
  Lemma log_grew_trans s1 s2 s3 : log_grew s1 s2 → log_grew s2 s3 → log_grew s1 s3.
  Proof. intros [l1 H1] [l2 H2]. exists (l1 ++ l2). by rewrite H2, H1, app_assoc. Qed.
  Lemma exec_whole n ctx c s inp s' r : sound (upto U w n) s → (∀ k, c ≠ KSync k) → exec (w n) ctx c s inp = (s', r) →
    (∀ a rest, r = UOk a rest → sound (upto U w (S n)) s' ∧ log_grew s s') ∧ (∀ e rest, r = UErr e rest → sound (upto U w (S n)) s' ∧ log_grew s s').
  Proof.
    intros Hs Hc E. pose proof (tame_upto n) as Htn. destruct (exec_grows (upto U w n) (w n) ctx c s inp s' r Htn Hs Hc E) as [Hga Hgb].
    destruct Htn as (Hf & Ho & Hn). set (V := λ u, upto U w n u ∨ u = drawn (w n)).
    assert (∀ u, V u → upto U w (S n) u) as Hm. { intros u [[Hu|(i & Hi & ->)]| ->]; [by left|right; exists i; split; [lia|done]|right; exists n; split; [lia|done]]. }
    assert (sound V s) as HV by (apply (sound_mono (upto U w n)); [by left|done]).
    assert (∀ l l' : list tx, (∀ t, t ∈ l → V (tx_uuid t)) → (∀ t, t ∈ l' → V (tx_uuid t)) → ∀ t, t ∈ l ++ l' → V (tx_uuid t)) as H1.
    { intros l l' Ha Hb t [?|?]%elem_of_app; [by apply Ha|by apply Hb]. }
    assert (∀ (l : list tx) t, (∀ t, t ∈ l → V (tx_uuid t)) → t ∈ l → V (tx_uuid t)) as H2 by (intros l t Ha; by apply Ha).
    destruct (keep_exec (λ l, ∀ t, t ∈ l → V (tx_uuid t)) V H1 H2 (w n) Hf Ho (or_intror eq_refl) ctx c) with s inp s' r as [Ha Hb].
    - intros k Ek. by destruct (Hc k).
    - split; [by apply I_sound|]. intros t Hin E'. apply Hn. rewrite <-E'. by apply Hs.
    - done.
    - split; intros; (split; [|eauto]); (eapply sound_mono; [exact Hm|]); apply I_sound; eauto.
  Qed.
  Definition entered (inp : list input) : Prop := never_typed "sync" inp ∧ never_typed "adduser" inp ∧ (never_typed "passwd" inp ∨ ∀ pass, Q pass).
  Lemma entered_suffix inp rest : rest `suffix_of` inp → entered inp → entered rest.
  Proof. intros Hs (H1 & H2 & H3). split; [by eapply never_suffix|]. split; [by eapply never_suffix|]. destruct H3; [left; by eapply never_suffix|by right]. Qed.
  Lemma loop_whole f : ∀ n ctx shown s inp s' o r, sound (upto U w n) s → JQ P Q s → entered inp → run_loop f w n ctx shown s inp = (s', o, r) →
    ∃ k, (∀ rest, r = UOk tt rest → sound (upto U w k) s' ∧ JQ P Q s' ∧ log_grew s s') ∧ (∀ e rest, r = UErr e rest → sound (upto U w k) s' ∧ JQ P Q s' ∧ log_grew s s').
  Proof.
    induction f as [|f IH]; intros n ctx shown s inp s' o r Hs HJ Hi; [intros [= <- <- <-]; by exists n|].
    assert (log_grew s s) as Hg by (exists []; by rewrite app_nil_r).
    destruct inp as [|[line|e] rest]; cbn [run_loop]; [intros [= <- <- <-]; by exists n| |destruct e; intros [= <- <- <-]; exists n; split; by intros].
    assert (entered rest) as Hir by (eapply entered_suffix; [|done]; by apply suffix_cons_r).
    destruct (parse_line (s_readOnly s) ctx line) as [| | | |c] eqn:Ep; [by apply IH..|].
    destruct (never_cmd (ILine line :: rest) line (s_readOnly s) ctx c) as (Hc1 & Hc2 & Hc3); [by left|done|].
    destruct Hi as (Hi1 & Hi2 & Hi3). specialize (Hc1 Hi1). specialize (Hc2 Hi2).
    assert (∀ u, c = KPasswd u → ∀ pass, Q pass) as Hc4. { intros u Eu. destruct Hi3 as [Hi3|]; [by destruct (Hc3 Hi3 u)|done]. }
    assert ((match exec (w n) ctx c s rest with
              | (s', UOk (ctx', o) rest') => run_loop f w (S n) ctx' (shown ++ o) s' rest'
              | (s', UErr e rest') => (s', shown, UErr e rest')
              | (s', UPanic) => (s', shown, UPanic)
              | (s', UWait) => (s', shown, UWait)
              end) = (s', o, r) → ∃ k, (∀ rest, r = UOk tt rest → sound (upto U w k) s' ∧ JQ P Q s' ∧ log_grew s s') ∧
                (∀ e rest, r = UErr e rest → sound (upto U w k) s' ∧ JQ P Q s' ∧ log_grew s s')) as Hrun.
    { destruct (exec (w n) ctx c s rest) as [s2 r2] eqn:E. destruct (exec_whole n ctx c s rest s2 r2 Hs Hc1 E) as [Ha Hb].
      destruct (JQ_exec P Q (w n) (HP n) (Hr n) ctx c Hc1 Hc2 Hc4 s rest s2 r2 HJ E) as [Ja Jb].
      destruct r2 as [[ctx' o'] rest2|e2 rest2| |].
      - destruct (Ha _ _ eq_refl) as [Hs2 Hg2]. specialize (Ja _ _ eq_refl). assert (entered rest2) as Hi2'.
        { eapply entered_suffix; [|done]. eapply exec_suffix; [|done]. intros k Ek. by destruct (Hc1 k). }
        intros H. destruct (IH _ _ _ _ _ _ _ _ Hs2 Ja Hi2' H) as (k & Hx & Hy).
        exists k. split; intros; [destruct (Hx rest0) as (?&?&?)|destruct (Hy e rest0) as (?&?&?)]; try done; (split; [done|]; split; [done|]; by eapply log_grew_trans).
      - intros [= <- <- <-]. exists (S n). split; [done|]. intros e rest3 _. destruct (Hb _ _ eq_refl). specialize (Jb _ _ eq_refl). done.
      - intros [= <- <- <-]. by exists n.
      - intros [= <- <- <-]. by exists n. }
    destruct c; try exact Hrun. intros [= <- <- <-]. exists n. split; [by intros|done].
  Qed.

  Lemma main_whole w0 w1 e ord riv s inp s' o rest :
    prims_ok P → length riv = 40 → sound U s → JQ P Q s → entered inp →
    run_repl w s inp = (s', o, UOk tt rest) →
    ∃ f pass, Q pass ∧ session_main P false w0 w1 w e ord (Some riv) s inp = (s', UOk (Some f) rest) ∧ log_grew s s' ∧
      ∀ m, good (s_db s') m → ∀ sp rsalt r, ∃ s2, loadBlob P (Found (mk_slice f sp)) None rsalt (ILine pass :: r) = UOk s2 r ∧
        same_store (s_db s') (s_db s2) ∧ good (s_db s2) m.
  Proof.
    intros HPo Hl Hs HJ Hi E.
    assert (sound (upto U w 0) s) as Hs0 by (eapply sound_mono; [|done]; by left).
    destruct (loop_whole _ _ _ _ _ _ _ _ _ Hs0 HJ Hi E) as (k & Hx & _). destruct (Hx _ eq_refl) as (Hs' & HJ' & Hg).
    destruct HJ' as [[Hro _] (pass & Hq & Hss)].
    destruct (J_saves P _ s' e ord riv HPo Hs') as [f Ef]; [split; [done|by exists pass]|done|].
    exists f, pass. split; [done|]. split.
    { unfold session_main. assert (∀ w0 inp s, auto_sync false w0 s inp = (s, UOk tt inp)) as Ha.
      { intros w2 inp2 s2. unfold auto_sync. rewrite (C_ok _ _ _ _ s2 s2 inp2) by done. rewrite andb_false_r. done. }
      rewrite Ha, E. cbn [andb]. rewrite Ha, Ef. done. }
    split; [done|]. intros m Hm sp rsalt r.
    destruct (single_reopen P s' pass m e ord riv sp rsalt r HPo Hm Hro Hss Hl) as (f2 & s2 & Ef2 & El & H1 & H2 & _).
    rewrite Ef in Ef2. injection Ef2 as ->. by exists s2.
  Qed.
End whole.
