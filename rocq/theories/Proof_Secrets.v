(** Proofs about which commands give out stored values. *)
From Verif Require Import Model_Conflict Spec_Merge Proof_Merge Proof_Merge3 Spec_Secrets Spec_Lines Proof_Lines Proof_Main.
From Coq Require Import Lia.
From stdpp Require Import options.
Import Model_GoStr.
#[local] Open Scope nat_scope.

(** The results of a command that ends are in [Q]. *)
Definition gives {A} (Q : A → Prop) (x : C A) : Prop := ∀ s inp s' a rest, x s inp = (s', UOk a rest) → Q a.
Lemma gives_bind {A B} (Q : B → Prop) (x : C A) (f : A → C B) : (∀ a, gives Q (f a)) → gives Q (mbind f x).
Proof.
  intros H s inp s' b rest. unfold mbind, C_bind. destruct (x s inp) as [s1 [a r|e r| |]]; try discriminate. apply H.
Qed.
Lemma gives_bind_of {A B} (R : A → Prop) (Q : B → Prop) (x : C A) (f : A → C B) : gives R x → (∀ a, R a → gives Q (f a)) → gives Q (mbind f x).
Proof.
  intros Hx H s inp s' b rest. unfold mbind, C_bind. destruct (x s inp) as [s1 [a r|e r| |]] eqn:E; try discriminate. apply H. by eapply Hx.
Qed.
Lemma gives_ret {A} (Q : A → Prop) (a : A) : Q a → gives Q (mret a).
Proof. intros H s inp s' b rest [= <- <- <-]. done. Qed.
Lemma gives_if {A} (Q : A → Prop) (b : bool) (x y : C A) : gives Q x → gives Q y → gives Q (if b then x else y).
Proof. by destruct b. Qed.
Lemma gives_fail {A} (Q : A → Prop) (o : outcome A) : (∀ a, o = Ok a → Q a) → gives Q (try o).
Proof. intros H s inp s' a rest. unfold try. destruct o; try discriminate. intros [= <- <- <-]. by apply H. Qed.
Lemma gives_catching {A B} (Q : B → Prop) (m : M A) h k : (∀ e b, h e = Some b → Q b) → (∀ a, Q (k a)) → gives Q (catching m h k).
Proof.
  intros H1 H2 s inp s' b rest. unfold catching. destruct (m (s_db s)) as [d [a|e|]]; [|destruct (h e) eqn:E|]; try discriminate; intros [= <- <- <-]; [done|by eapply H1].
Qed.
Lemma gives_within {A} (Q : A → Prop) (x : C A) : gives Q x → gives Q (within x).
Proof.
  intros H s inp s' a rest. unfold within. destruct (x _ inp) as [s1 [b r|e r| |]] eqn:E; [destruct (Commit _)|destruct (Rollback _)| |]; try discriminate.
  intros [= <- <- <-]. by eapply H.
Qed.
Lemma gives_interruptible {A} (Q : A → Prop) d (x : C A) : Q d → gives Q x → gives Q (interruptible d x).
Proof.
  intros Hd H s inp s' a rest. unfold interruptible. destruct (x s inp) as [s1 [b r|e r| |]] eqn:E; [| |discriminate|discriminate].
  - intros [= <- <- <-]. by eapply H.
  - destruct e; try discriminate; intros [= <- <- <-]; done.
Qed.
Lemma gives_ask {A} (Q : A → Prop) (f : list input → ui A) : (∀ inp a rest, f inp = UOk a rest → Q a) → gives Q (ask f).
Proof. intros H s inp s' a rest. unfold ask. intros [= <- E]. by eapply H. Qed.


Lemma if_taken_is {B} (b : B) e x : if_taken b e = Some x → x = b.
Proof. unfold if_taken. destruct (decide _) || destruct e; by intros [= <-]. Qed.
Ltac q_step :=
  first [ apply gives_ret; repeat constructor | apply gives_if | apply gives_bind; intros
        | apply gives_within | apply gives_interruptible; [repeat constructor|]
        | apply gives_catching; [let E := fresh in intros ? ? E; first [injection E as <-|apply if_taken_is in E as ->]; repeat constructor|intros; repeat constructor]
        | match goal with |- gives _ (match ?x with _ => _ end) => destruct x end
        | apply gives_fail; intros ? ?; discriminate ].

Lemma names_quiet w r : Forall quiet (names_of w r).
Proof. unfold names_of. destruct (r_ord _ _); repeat constructor. Qed.
Lemma exec_shows (Q : out → Prop) (x : C (list out)) ctx : gives (Forall Q) x → gives (λ r, Forall Q r.2) (showing ctx x).
Proof. intros H. unfold showing. eapply gives_bind_of; [exact H|]. intros a Ha. by apply gives_ret. Qed.

Lemma exec_quiet w ctx c : ¬ telling c → gives (λ r, Forall quiet r.2) (exec w ctx c).
Proof.
  intros Hc. destruct c as [| | | | | | | | |q| | | | | | | | | | | | | | |]; try (by destruct Hc); cbn [exec].
  all: try (unfold silent; apply gives_bind; intros; apply gives_ret; constructor).
  all: try (apply exec_shows).
  - unfold addNewInterruptible, addNew. repeat q_step.
  - unfold rename. apply gives_bind; intros [[u b]|]; [|repeat q_step]. apply gives_if; [repeat q_step|].
    apply gives_catching; [|intros; repeat constructor]. intros e b0 E. apply if_taken_is in E as ->. repeat constructor.
  - unfold deleteKey. repeat q_step.
  - unfold list_cmd. apply gives_bind; intros. apply gives_ret, names_quiet.
  - destruct q; repeat q_step.
  - unfold edit. repeat q_step.
  - unfold openurl. intros s inp s' o rest. destruct (findq w query s inp) as [s1 [u r|e r| |]]; try discriminate; [|intros [= <- <- <-]; constructor].
    revert o rest s'. generalize s1 r. intros s2 r2 o rest s'.
    match goal with |- (?x _ _ = _) → _ => cut (gives (Forall quiet) x) end; [intros H; apply H|]. repeat q_step.
  - unfold addLabels. repeat q_step.
  - unfold deleteLabel. repeat q_step.
  - unfold listByLabels. apply gives_bind; intros. apply gives_ret, names_quiet.
  - unfold addSyncInterruptible, addSync. repeat q_step.
  - repeat q_step.
  - repeat q_step.
Qed.

Lemma give_copied k v : Forall copied (give true k v).
Proof. repeat constructor. Qed.
Lemma login_copied l : ∀ inp o rest, login_loop l inp = UOk o rest → Forall copied o.
Proof.
  induction l as [|[k v] l IH]; intros inp o rest; [intros [= <- <-]; constructor|]. cbn [login_loop].
  destruct l as [|x l]; [intros [= <- <-]; repeat constructor|]. unfold ubind at 1. destruct (prompt inp) as [a r|e r| |]; try discriminate.
  unfold ubind. destruct (login_loop (x :: l) r) as [o2 r2|e r2| |] eqn:E; try discriminate. intros [= <- <-]. constructor; [done|]. by eapply IH.
Qed.
Lemma exec_copied w ctx c : copying c → gives (λ r, Forall copied r.2) (exec w ctx c).
Proof.
  intros Hc. destruct c as [| | | | | | | | | |q k i copy| | | | | | | | | | | | | |]; try (by destruct Hc); cbn [exec]; apply exec_shows.
  - destruct copy; [|by destruct Hc]. unfold get_cmd. repeat q_step.
  - unfold login. apply gives_bind; intros. apply gives_if; [repeat q_step|]. apply gives_bind; intros. apply gives_bind; intros. apply gives_ask. intros inp o rest. apply login_copied.
Qed.

(** What set shows is what it was given, or what was asked for. *)
Lemma set_shows w q k v s inp s' o rest : set_cmd w q k v s inp = (s', UOk o rest) →
  o = [Note] ∨ o = [Report k v] ∨
  v = "" ∧ ∃ v', o = [Report k v'] ∧ ((k = KeyPass ∧ newPassword (w_rand w) inp = UOk v' rest) ∨ (k ≠ KeyPass ∧ promptMultiline inp = UOk v' rest)).
Proof.
  unfold set_cmd, findq. unfold mbind at 1, C_bind at 1. unfold on_db at 1. destruct (findOne _ _ _ _ _) as [d [u|e|]]; try discriminate. cbn [of_outcome].
  destruct (String.eqb u ""); [intros [= <- <- <-]; by left|].
  destruct (String.eqb_spec k KeyPass) as [->|Hk].
  - destruct (Nat.eqb_spec (String.length v) 0) as [Hv|Hv].
    + destruct v; [|done]. unfold mbind at 1, C_bind at 1. unfold ask at 1. destruct (newPassword _ inp) as [v' r|e r| |] eqn:E; try discriminate.
      unfold mbind, C_bind, on_db. destruct (dropping _ _) as [d2 [?|e|]]; try discriminate. intros [= <- <- <-]. right. right. split; [done|]. exists v'. split; [done|]. by left.
    + unfold mbind, C_bind, on_db. cbn [mret C_ret]. destruct (dropping _ _) as [d2 [?|e|]]; try discriminate. intros [= <- <- <-]. right. by left.
  - destruct (String.eqb k KeyTwoFactor).
    { unfold catching. destruct (SetTwofactor _ _ _ _ _ _) as [d2 [?|e|]]; intros [= <- <- <-]; [right; by left|by left]. }
    destruct (String.eqb k KeyURL).
    { destruct (w_url w v); try (intros [= <- <- <-]; by left).
      unfold mbind, C_bind, on_db. destruct (dropping _ _) as [d2 [?|e|]]; try discriminate. intros [= <- <- <-]. right. by left. }
    destruct (Nat.eqb_spec (String.length v) 0) as [Hv|Hv].
    + destruct v; [|done]. unfold mbind at 1, C_bind at 1. unfold ask at 1. destruct (promptMultiline inp) as [v' r|e r| |] eqn:E; try discriminate.
      unfold mbind, C_bind, on_db. destruct (dropping _ _) as [d2 [?|e|]]; try discriminate. intros [= <- <- <-]. right. right. split; [done|]. exists v'. split; [done|]. by right.
    + unfold mbind, C_bind, on_db. cbn [mret C_ret]. destruct (dropping _ _) as [d2 [?|e|]]; try discriminate. intros [= <- <- <-]. right. by left.
Qed.

(** ** Which words make the commands *)
Lemma telling_word ro ctx line c : parse_line ro ctx line = Run c → telling c → ∃ cmd, head (Fields (TrimSpace line)) = Some cmd ∧ cmd ∈ telling_words.
Proof.
  intros E Hc. destruct (Fields (TrimSpace line)) as [|cmd rest] eqn:Ef.
  { unfold parse_line in E. by rewrite Ef in E. }
  apply (parse_means _ _ _ _ _ _ Ef) in E as [Hm _]. exists cmd. split; [done|]. clear Ef.
  destruct Hm as [| | | | | | | | | | | | | | | | | |cmd ? ? ? Hq| | | | | | | | | | | | | | | | | |]; try done; unfold telling_words; try (rewrite !elem_of_cons; tauto).
  rewrite !elem_of_cons in Hq. rewrite !elem_of_cons. set_unfold. tauto.
Qed.
Lemma printing_word ro ctx line c : parse_line ro ctx line = Run c → telling c → ¬ copying c → ∃ cmd, head (Fields (TrimSpace line)) = Some cmd ∧ cmd ∈ printing_words.
Proof.
  intros E Hc Hn. destruct (Fields (TrimSpace line)) as [|cmd rest] eqn:Ef.
  { unfold parse_line in E. by rewrite Ef in E. }
  apply (parse_means _ _ _ _ _ _ Ef) in E as [Hm _]. exists cmd. split; [done|]. clear Ef.
  destruct Hm; try done; try (by destruct Hn); unfold printing_words; rewrite !elem_of_cons; tauto.
Qed.

Lemma loop_shows (Q : out → Prop) (G : command → Prop) w : (∀ n ctx c, G c → gives (λ r, Forall Q r.2) (exec (w n) ctx c)) → (∀ k, ¬ G (KSync k)) →
  ∀ fuel n ctx shown s inp s' o r, Forall Q shown → (∀ line ro ctx c, ILine line ∈ inp → parse_line ro ctx line = Run c → G c) →
  run_loop fuel w n ctx shown s inp = (s', o, r) → Forall Q o.
Proof.
  intros HG Hsy. induction fuel as [|fuel IH]; intros n ctx shown s inp s' o r Hs Hi; cbn [run_loop]; [intros [= <- <- <-]; done|].
  destruct inp as [|[line|e] inp]; [intros [= <- <- <-]; done| |destruct e; intros [= <- <- <-]; done].
  assert (∀ line ro ctx c, ILine line ∈ inp → parse_line ro ctx line = Run c → G c) as Hi2.
  { intros l ro cx c Hin. apply Hi. by apply elem_of_list_further. }
  destruct (parse_line (s_readOnly s) ctx line) as [| | | |c] eqn:Ep; try (by apply (IH n ctx shown s inp)).
  assert (G c) as Hc by (eapply Hi; [apply elem_of_list_here|done]).
  assert (∀ s1 x, exec (w n) ctx c s inp = (s1, x) →
     match x with UOk (ctx', o) rest' => run_loop fuel w (S n) ctx' (shown ++ o) s1 rest' | UErr e rest' => (s1, shown, UErr e rest')
       | UPanic => (s1, shown, UPanic) | UWait => (s1, shown, UWait) end = (s', o, r) → Forall Q o) as H.
  { intros s1 x Ex. destruct x as [[ctx' o1] r1|e r1| |]; try (intros [= <- <- <-]; done).
    apply IH; [apply Forall_app; split; [done|]; exact (HG n ctx c Hc _ _ _ _ _ Ex)|].
    intros l ro cx c' Hin. apply Hi2. assert (r1 `suffix_of` inp) as [k ->].
    { eapply exec_suffix; [|exact Ex]. intros k ->. by destruct (Hsy k). }
    apply elem_of_app. by right. }
  destruct (exec (w n) ctx c s inp) as [s1 x] eqn:Ex. specialize (H s1 x eq_refl).
  destruct c; try exact H. intros [= <- <- <-]. done.
Qed.
Lemma session_quiet w s inp s' o r : (∀ cmd, cmd ∈ telling_words → never_typed cmd inp) → run_repl w s inp = (s', o, r) → Forall quiet o.
Proof.
  intros Hn. apply (loop_shows quiet (λ c, ¬ telling c) w); [intros; by apply exec_quiet|by intros k []|constructor|].
  intros line ro ctx c Hin Ep Hc. destruct (telling_word _ _ _ _ Ep Hc) as (cmd & Hh & Hcw). by apply (Hn cmd Hcw line Hin).
Qed.
Lemma session_unprinted w s inp s' o r : (∀ cmd, cmd ∈ printing_words → never_typed cmd inp) → run_repl w s inp = (s', o, r) →
  Forall (λ x, quiet x ∨ copied x) o.
Proof.
  intros Hn. apply (loop_shows (λ x, quiet x ∨ copied x) (λ c, ¬ telling c ∨ copying c) w); [|by intros k [[]|[]]|constructor|].
  - intros n ctx c [Hc|Hc] t inp' t' a rest E; (eapply Forall_impl; [by eapply exec_quiet|]) || (eapply Forall_impl; [by eapply exec_copied|]); cbn; tauto.
  - intros line ro ctx c Hin Ep. assert (telling c ∨ ¬ telling c) as [Ht|Ht] by (destruct c; cbn; tauto); [|by left].
    assert (copying c ∨ ¬ copying c) as [Hc|Hc] by (destruct c as [| | | | | | | | | |? ? ? []| | | | | | | | | | | | | |]; cbn; tauto); [by right|].
    destruct (printing_word _ _ _ _ Ep Ht Hc) as (cmd & Hh & Hcw). by destruct (Hn cmd Hcw line Hin).
Qed.

(** ** The message about a conflict *)
Lemma conflict_untold a b cs : valid_log a → valid_log b → compatible a b → TxMerge a b [] = Ok (Conflicts cs) → ∀ k, k ∈ cs → conflict_tells k = "".
Proof.
  intros Ha Hb Hc E k Hk.
  assert (is_union a b (union_log a b)) as Hu by (apply union_log_is_union; [apply Ha|apply Hb|apply Hc]).
  destruct (Merge_conflicts_exact a b _ cs Ha Hb Hc Hu E) as (_ & H2 & H3 & _).
  destruct k as [[] d x r]; [|done]. specialize (H3 _ Hk). cbn in H3. subst r. apply H2 in Hk as ((_ & Hd & _) & _).
  unfold conflict_tells. cbn [cf_kind cf_initial]. by rewrite Hd.
Qed.
