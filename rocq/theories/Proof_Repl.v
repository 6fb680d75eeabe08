(** Proofs about read-only sessions. *)
From Verif Require Import Proof_TxLog Proof_GoStr Proof_Blobs Proof_Blobs2 Proof_Session Proof_Session2 Proof_Session3 Proof_Session4 Proof_Session5.
From Verif Require Export Spec_Repl.
From Coq Require Import Lia.
From stdpp Require Import options.

(** ** Store operations that only read *)
Definition quiet {A} (m : M A) : Prop :=
  ∀ d, db_log (m d).1 = db_log d ∧ db_txpoint (m d).1 = db_txpoint d.

Lemma quiet_ret {A} (a : A) : quiet (mret a). Proof. done. Qed.
Lemma quiet_lift {A} (o : outcome A) : quiet (lift o). Proof. done. Qed.
Lemma quiet_get : quiet get_snap. Proof. done. Qed.
Lemma quiet_update : quiet UpdateSnapshot.
Proof. intros d. destruct (UpdateSnapshot d) as [d' r] eqn:E. by apply UpdateSnapshot_log in E. Qed.
Lemma quiet_bind {A B} (f : A → M B) (m : M A) : quiet m → (∀ a, quiet (f a)) → quiet (mbind f m).
Proof.
  intros Hm Hf d. unfold mbind, M_bind. destruct (Hm d) as [H1 H2]. destruct (m d) as [d' [a| |]]; simpl in *; try done.
  destruct (Hf a d') as [-> ->]. done.
Qed.
Lemma quiet_if {A} (b : bool) (x y : M A) : quiet x → quiet y → quiet (if b then x else y). Proof. by destruct b. Qed.

Lemma quiet_Find u : quiet (Find u).
Proof. unfold Find. apply quiet_bind; [apply quiet_update|]. intros _. apply quiet_bind; [apply quiet_get|]. intros s. apply quiet_ret. Qed.
Lemma quiet_MustFind u : quiet (MustFind u).
Proof. unfold MustFind. apply quiet_bind; [apply quiet_Find|]. intros [b|]; [apply quiet_ret|apply quiet_lift]. Qed.
Lemma quiet_Search lower e q : quiet (Search lower e q).
Proof.
  unfold Search. apply quiet_bind; [apply quiet_update|]. intros _. apply quiet_bind; [apply quiet_get|]. intros s. cbv zeta.
  apply quiet_if; [apply quiet_ret|]. apply quiet_if; apply quiet_lift.
Qed.
Lemma quiet_SearchLabels e ls : quiet (SearchLabels e ls).
Proof.
  unfold SearchLabels. apply quiet_bind; [apply quiet_update|]. intros _. apply quiet_bind; [apply quiet_get|]. intros s. cbv zeta.
  apply quiet_if; [apply quiet_ret|]. destruct ls; apply quiet_lift.
Qed.
Lemma quiet_findOne lower ord e q : quiet (findOne lower ord e q).
Proof.
  unfold findOne. apply quiet_bind; [apply quiet_Search|]. intros r. cbv zeta.
  destruct (ord (res_map r)) as [|[? ?] [|? ?]]; apply quiet_ret.
Qed.

(** ** Commands that leave the session as it is *)
Lemma unchanged_refl s : unchanged s s.
Proof. split; [done|]. split; [done|]. by rewrite set_db_same. Qed.
Lemma set_set_db d d' s : set_db d (set_db d' s) = set_db d s. Proof. done. Qed.
Lemma unchanged_trans s1 s2 s3 : unchanged s1 s2 → unchanged s2 s3 → unchanged s1 s3.
Proof.
  intros (A1 & B1 & C1) (A2 & B2 & C2). split; [by rewrite A2|]. split; [by rewrite B2|].
  rewrite C2, C1. rewrite !set_set_db. done.
Qed.

Definition leaves {A} (x : C A) : Prop := ∀ s inp, unchanged s (x s inp).1.

Lemma leaves_ret {A} (a : A) : leaves (mret a). Proof. intros s inp. apply unchanged_refl. Qed.
Lemma leaves_try {A} (o : outcome A) : leaves (try o). Proof. intros s inp. apply unchanged_refl. Qed.
Lemma leaves_ask {A} (f : list input → ui A) : leaves (ask f). Proof. intros s inp. apply unchanged_refl. Qed.
Lemma leaves_state : leaves state. Proof. intros s inp. apply unchanged_refl. Qed.
Lemma leaves_on_db {A} (m : M A) : quiet m → leaves (on_db m).
Proof.
  intros H s inp. unfold on_db. destruct (H (s_db s)) as [H1 H2]. destruct (m (s_db s)) as [d o]. simpl in *.
  split; [simpl; by rewrite H1|]. split; [done|]. done.
Qed.
Lemma leaves_bind {A B} (f : A → C B) (x : C A) : leaves x → (∀ a, leaves (f a)) → leaves (mbind f x).
Proof.
  intros Hx Hf s inp. unfold mbind, C_bind. specialize (Hx s inp). destruct (x s inp) as [s' [a r|e r| |]]; simpl in *; try done.
  eapply unchanged_trans; [exact Hx|]. apply Hf.
Qed.
Lemma leaves_if {A} (b : bool) (x y : C A) : leaves x → leaves y → leaves (if b then x else y). Proof. by destruct b. Qed.

Ltac leaf := repeat (first
  [ apply leaves_ret | apply leaves_try | apply leaves_ask | apply leaves_state
  | apply leaves_on_db; first [apply quiet_findOne | apply quiet_MustFind | apply quiet_Find | apply quiet_Search | apply quiet_SearchLabels]
  | apply leaves_if
  | apply leaves_bind; [|intros ?]
  | match goal with |- leaves (match ?x with _ => _ end) => destruct x end ]).

Lemma leaves_find w q : leaves (findq w q). Proof. unfold find. leaf. Qed.
Lemma leaves_list w q : leaves (list_cmd w q). Proof. unfold list_cmd. leaf. Qed.
Lemma leaves_labels w q : leaves (listByLabels w q). Proof. unfold listByLabels. leaf. Qed.
Lemma leaves_get w q k i c : leaves (get_cmd w q k i c).
Proof. unfold get_cmd. apply leaves_bind; [apply leaves_find|intros u]. leaf. Qed.
Lemma leaves_show w q i : leaves (show w q i).
Proof. unfold show. apply leaves_bind; [apply leaves_find|intros u]. leaf. Qed.
Lemma leaves_dump w q : leaves (dump w q).
Proof. unfold dump. apply leaves_bind; [apply leaves_find|intros u]. leaf. Qed.
Lemma leaves_open w q : leaves (openurl w q).
Proof.
  intros s inp. unfold openurl. pose proof (leaves_find w q s inp) as H.
  destruct (findq w q s inp) as [s' [u r|e r| |]]; simpl in *; try done.
  eapply unchanged_trans; [exact H|].
  match goal with |- unchanged s' ((?x s' r).1) => enough (leaves x) as Hl by apply Hl end. leaf.
Qed.
Lemma leaves_login w q : leaves (login w q).
Proof. unfold login. apply leaves_bind; [apply leaves_find|intros u]. leaf. Qed.

(** the commands a read-only session accepts *)
Definition read_command (c : command) : Prop :=
  match c with
  | KLs _ | KCd _ | KGet _ _ _ _ | KOpen _ | KLabels _ | KShow _ _ | KDump _ | KDumpAll | KHelp | KExit => True
  | _ => False
  end.

Lemma leaves_exec w ctx c : read_command c → leaves (exec w ctx c).
Proof.
  destruct c; intros H; try done; cbn [exec]; unfold showing, silent.
  - apply leaves_bind; [apply leaves_list|]. intros; leaf.
  - destruct query; [|leaf]. apply leaves_bind; [apply leaves_find|intros u]. leaf.
  - apply leaves_bind; [apply leaves_get|]. intros; leaf.
  - apply leaves_bind; [apply leaves_open|]. intros; leaf.
  - apply leaves_bind; [apply leaves_labels|]. intros; leaf.
  - apply leaves_bind; [apply leaves_show|]. intros; leaf.
  - apply leaves_bind; [apply leaves_dump|]. intros; leaf.
  - unfold dumpall. apply leaves_bind; [leaf|]. intros; leaf.
  - leaf.
  - leaf.
Qed.

Lemma keyed_read ctx args k c : keyed ctx args k = Run c → (∀ n q r, k n q r = Run c → read_command c) → read_command c.
Proof. unfold keyed. destruct (String.length ctx =? 0)%nat; destruct args as [|a [|b args]]; intros H Hk; try done; by eapply Hk. Qed.
Lemma queried_read ctx args k c : queried ctx args k = Run c → (∀ n r, k n r = Run c → read_command c) → read_command c.
Proof. unfold queried. destruct (String.length ctx =? 0)%nat; destruct args as [|a args]; intros H Hk; try done; by eapply Hk. Qed.

Lemma run_of_read ctx cmd args c : is_cmd read_cmds cmd = true → run_of ctx cmd args = Run c → read_command c.
Proof.
  unfold is_cmd. intros H. apply existsb_exists in H as (x & Hx & E). apply String.eqb_eq in E as ->.
  repeat (destruct Hx as [<-|Hx]; [cbn -[keyed queried]|]); try (by destruct Hx).
  - by intros [= <-].
  - destruct args as [|a [|b args]]; intros H; inversion H; done.
  - unfold getCopy. intros H. eapply keyed_read; [exact H|]. intros n q r. destruct r as [|y r]; [by intros [= <-]|].
    destruct (Atoi y); try done. by intros [= <-].
  - unfold getCopy. intros H. eapply keyed_read; [exact H|]. intros n q r. destruct r as [|y r]; [by intros [= <-]|].
    destruct (Atoi y); try done. by intros [= <-].
  - unfold quickCopy. intros H. eapply queried_read; [exact H|]. intros n r. by intros [= <-].
  - unfold quickCopy. intros H. eapply queried_read; [exact H|]. intros n r. by intros [= <-].
  - unfold quickCopy. intros H. eapply queried_read; [exact H|]. intros n r. by intros [= <-].
  - unfold quickCopy. intros H. eapply queried_read; [exact H|]. intros n r. by intros [= <-].
  - intros H. eapply queried_read; [exact H|]. intros n r. by intros [= <-].
  - destruct args; [done|]. by intros [= <-].
  - intros H. eapply queried_read; [exact H|]. intros n r. by intros [= <-].
  - intros H. eapply queried_read; [exact H|]. intros n r. by intros [= <-].
  - by intros [= <-].
  - by intros [= <-].
  - by intros [= <-].
Qed.

Lemma parse_read ctx line c : parse_line true ctx line = Run c → read_command c.
Proof.
  unfold parse_line. destruct (Fields (TrimSpace line)) as [|cmd rest]; [done|]. cbv zeta.
  destruct (is_cmd read_cmds cmd) eqn:E; cbn [orb negb andb]; [by apply run_of_read|]. destruct (is_cmd write_cmds cmd); done.
Qed.

Lemma run_loop_read fuel : ∀ w n ctx shown s inp, s_readOnly s = true →
  unchanged s (run_loop fuel w n ctx shown s inp).1.1.
Proof.
  induction fuel as [|f IH]; intros w n ctx shown s inp Hro; cbn [run_loop]; [apply unchanged_refl|].
  destruct inp as [|[line|e] rest]; [apply unchanged_refl| |destruct e; apply unchanged_refl].
  rewrite Hro. destruct (parse_line true ctx line) as [| | | |c] eqn:E; try (by apply IH).
  apply parse_read in E.
  assert (unchanged s (match exec (w n) ctx c s rest with
              | (s', UOk (ctx', o) rest') => run_loop f w (S n) ctx' (shown ++ o) s' rest'
              | (s', UErr e rest') => (s', shown, UErr e rest')
              | (s', UPanic) => (s', shown, UPanic)
              | (s', UWait) => (s', shown, UWait)
              end).1.1) as H.
  { pose proof (leaves_exec (w n) ctx c E s rest) as Hl.
    destruct (exec (w n) ctx c s rest) as [s' [[ctx' o] r|e r| |]]; simpl in *; try done.
    eapply unchanged_trans; [exact Hl|]. apply IH. destruct Hl as (_ & _ & ->). done. }
  destruct c; try exact H. apply unchanged_refl.
Qed.

Lemma saveBlob_read P e ord riv s : s_readOnly s = true → saveBlob P e ord riv s = (s, Ok None).
Proof. intros H. unfold saveBlob. by rewrite H. Qed.

Lemma main_read P a w0 w1 w e ord riv s inp s' r : s_readOnly s = true →
  session_main P a w0 w1 w e ord riv s inp = (s', r) → unchanged s s' ∧ ∀ f rest, r ≠ UOk (Some f) rest.
Proof.
  intros Hro. unfold session_main.
  assert (∀ b w s inp, s_readOnly s = true → auto_sync b w s inp = (s, UOk tt inp)) as Hs.
  { intros b wx sx ix Hx. unfold auto_sync. rewrite (C_ok _ _ _ _ sx sx ix) by done. rewrite Hx. done. }
  rewrite Hs by done. pose proof (run_loop_read (S (length inp)) w 0 "" [] s inp Hro) as Hu.
  unfold run_repl. destruct (run_loop _ _ _ _ _ s inp) as [[s2 sh] r2]. simpl in Hu.
  assert (s_readOnly s2 = true) as H2 by (destruct Hu as (_ & _ & ->); done).
  destruct r2 as [[] r2|er r2| |]; try (intros [= <- <-]; done).
  rewrite Hs by done. rewrite saveBlob_read by done. intros [= <- <-]. done.
Qed.
