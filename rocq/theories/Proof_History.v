(** Proofs about the help texts and the remembered lines. *)
From Verif Require Import Spec_History Spec_Lines Proof_GoStr Proof_Utf8 Proof_Trim Proof_Dialogue Proof_Lines Proof_Repl Proof_Repl2 Proof_Repl3 Proof_Repl5 Proof_Repl6 Proof_Repl7 Proof_Main.
From Coq Require Import Lia.
From stdpp Require Import options.
Import Model_GoStr.
#[local] Open Scope nat_scope.

(** ** The help *)
Definition repl_usages : list (list string) :=
  [["passwd"]; ["help"; "[topic]"]; ["exit"];
   ["add"; "<name>"]; ["rm"; "<name>"]; ["mv"; "<old>"; "<new>"]; ["ls"; "[query]"]; ["cd"; "[query]"]; ["labels"; "<lbl...>"];
   ["show"; "<query>"; "[snapshot]"]; ["set"; "<query>"; "<key>"; "[value]"]; ["get"; "<query>"; "<key>"]; ["cp"; "<query>"; "<key>"];
   ["edit"; "<query>"; "<key>"]; ["open"; "<query>"]; ["rmk"; "<query>"; "<key>"]; ["label"; "<query>"]; ["rmlabel"; "<query>"; "<label>"];
   ["pass"; "<query>"]; ["user"; "<query>"]; ["email"; "<query>"]; ["totp"; "<query>"]; ["login"; "<query>"]].
Definition sync_usages : list (list string) := [["sync"; "[name]"]; ["addsync"; "<kind>"]].
Definition users_usages : list (list string) := [["adduser"; "<user>"]; ["passwd"; "[user]"]; ["rekey"; "[user]"]; ["rekeyall"]].
Definition other_usages : list (list string) := [["dump"; "<query>"]; ["dumpall"]].

Lemma usages_repl : usages replHelp = repl_usages. Proof. vm_compute. reflexivity. Qed.
Lemma usages_sync : usages syncHelp = sync_usages. Proof. vm_compute. reflexivity. Qed.
Lemma usages_users : usages usersHelp = users_usages. Proof. vm_compute. reflexivity. Qed.
Lemma usages_other : usages otherHelp = other_usages. Proof. vm_compute. reflexivity. Qed.
Lemma usages_none : usages "" = []. Proof. vm_compute. reflexivity. Qed.

Definition all_usages : list (list string) := repl_usages ++ sync_usages ++ users_usages ++ other_usages.
Lemma advertised_iff u : advertised u ↔ u ∈ all_usages.
Proof.
  unfold advertised, all_usages. rewrite !elem_of_app. split.
  - intros (args & H). unfold help_text in H. destruct args as [|t args]; [rewrite usages_repl in H; auto|].
    destruct (String.eqb t "sync"); [rewrite usages_sync in H; auto|]. destruct (String.eqb t "users"); [rewrite usages_users in H; auto|].
    destruct (String.eqb t "other"); [rewrite usages_other in H; auto|]. rewrite usages_none in H. by apply elem_of_nil in H.
  - intros [H|[H|[H|H]]].
    + exists []. unfold help_text. by rewrite usages_repl.
    + exists ["sync"]. unfold help_text. rewrite String.eqb_refl. by rewrite usages_sync.
    + exists ["users"]. change (help_text ["users"]) with usersHelp. by rewrite usages_users.
    + exists ["other"]. change (help_text ["other"]) with otherHelp. by rewrite usages_other.
Qed.

Lemma advertised_commands cmd : is_command cmd ↔ ∃ sig, advertised (cmd :: sig).
Proof.
  unfold is_command. split.
  - rewrite <- elem_of_app. intros H.
    assert (Forall (λ c, ∃ u, u ∈ all_usages ∧ head u = Some c) (read_cmds ++ write_cmds)) as HF.
    { assert (∀ c, bool_decide (Exists (λ u, head u = Some c) all_usages) = true → ∃ u, u ∈ all_usages ∧ head u = Some c) as Hx.
      { intros c Hc%bool_decide_eq_true. by apply Exists_exists in Hc. }
      cbn [read_cmds write_cmds app].
      repeat constructor; apply Hx; vm_compute; reflexivity. }
    rewrite Forall_forall in HF. destruct (HF cmd H) as ([|c sig] & Hu & Hh); [done|]. injection Hh as ->. exists sig. by apply advertised_iff.
  - intros (sig & H%advertised_iff). rewrite <- elem_of_app.
    assert (Forall (λ u, ∀ c sig, u = c :: sig → c ∈ read_cmds ++ write_cmds) all_usages) as HF.
    { cbn [all_usages repl_usages sync_usages users_usages other_usages app].
      repeat (constructor; [intros ? ? [= <- <-]; compute_dec|]). constructor. }
    rewrite Forall_forall in HF. by eapply HF.
Qed.

Ltac over_usages H := rewrite advertised_iff in H; apply elem_of_list_In in H; cbn [all_usages repl_usages sync_usages users_usages other_usages app In] in H;
  repeat (destruct H as [H|H]; [injection H as <- <-|]); [..|destruct H].

(** Outside of an entry: fewer words than needed are answered with a message
    about the syntax, and all that are named are taken. *)
Lemma too_few cmd sig args : advertised (cmd :: sig) → length args < needs sig → run_of "" cmd args = Usage.
Proof.
  intros H. over_usages H; cbn [needs List.filter needed length]; intros Hl;
    (destruct args as [|a1 [|a2 [|a3 args]]]; cbn [length] in Hl; try lia; reflexivity) || (vm_compute in Hl; lia) || idtac.
  all: destruct args as [|a1 [|a2 [|a3 args]]]; cbn [length] in Hl; vm_compute in Hl; try lia; reflexivity.
Qed.

Lemma length_0 s : s ≠ "" → (String.length s =? 0) = false.
Proof. by destruct s. Qed.

Lemma taken cmd sig args : advertised (cmd :: sig) → Forall (λ a, a ≠ "") args → needs sig ≤ length args ≤ length sig → ∃ c, run_of "" cmd args = Run c.
Proof.
  intros H. over_usages H; intros HF Hl;
    (destruct args as [|a1 [|a2 [|a3 [|a4 args]]]]; vm_compute in Hl; try lia);
    repeat match goal with HF : Forall _ (_ :: _) |- _ => inversion HF; clear HF; subst end; cbn -[Atoi String.length go_join];
    rewrite ?length_0 by done; eauto.
  all: unfold keyed; change (String.length "" =? 0) with true; cbv iota; rewrite !length_0 by done; cbn [orb]; eauto.
Qed.

(** Inside of an entry the query is left out. *)
Lemma inside cmd sig ctx args : advertised (cmd :: "<query>" :: sig) → ctx ≠ "" → length args ≤ length sig →
  run_of ctx cmd args = run_of "" cmd (ctx :: args).
Proof.
  intros H Hc. pose proof (length_0 ctx Hc) as Hz.
  rewrite advertised_iff in H; apply elem_of_list_In in H; cbn [all_usages repl_usages sync_usages users_usages other_usages app In] in H.
  repeat (destruct H as [H|H]; [try discriminate H; injection H as <- <-|]); [..|destruct H];
  intros Hl; (destruct args as [|a1 [|a2 [|a3 args]]]; cbn [length] in Hl; try lia);
  cbn -[Atoi String.length go_join]; unfold getCopy, quickCopy, keyed, queried; rewrite ?Hz; try reflexivity.
Qed.

(** ** The lines remembered *)
Lemma remembers_loop w n ctx s inp h : (∀ n k, reads (w_sync (w n) k)) → remembers w n ctx s inp h →
  ∀ f, length inp < f → hist_loop f w n ctx s inp = h.
Proof.
  intros Hw H. induction H as [n ctx s inp Hi|n ctx s line rest Hp|n ctx s line rest h Hp H IH|n ctx s line rest h Hp H IH
    |n ctx s line rest c s1 ctx1 o1 rest1 h Hp Hc E H IH|n ctx s line rest c s1 r Hp Hc E Hr]; intros f Hf; (destruct f as [|f]; [lia|]); cbn [length] in Hf; cbn [hist_loop].
  - by destruct inp as [|[l|e] inp].
  - by rewrite Hp.
  - rewrite <- (IH f) by lia. apply elem_of_list_In in Hp. cbn in Hp. by destruct Hp as [<-|[<-|[<-|[]]]].
  - rewrite Hp. rewrite IH by lia. done.
  - rewrite Hp, E. apply exec_suffix in E as [p ->]; [|by intros; apply Hw]. rewrite app_length in Hf. rewrite IH by lia. by destruct c.
  - rewrite Hp, E. destruct r as [[ctx1 o1] rest1|e rest1| |]; [by destruct (Hr (ctx1, o1) rest1)|by destruct c..].
Qed.
Lemma remembers_some w : (∀ n k, reads (w_sync (w n) k)) → ∀ f n ctx s inp, length inp < f → ∃ h, remembers w n ctx s inp h.
Proof.
  intros Hw f. induction f as [|f IH]; intros n ctx s inp Hf; [lia|].
  destruct inp as [|[line|e] rest]; [exists []; by constructor| |exists []; by constructor].
  cbn [length] in Hf. destruct (parse_line (s_readOnly s) ctx line) as [| | | |c] eqn:Hp.
  1-4: destruct (IH n ctx s rest) as [h Hh]; [lia|].
  1-3: exists h; apply rem_passed; [|done]; rewrite Hp; compute_dec.
  - exists (TrimSpace line :: h). by apply rem_usage.
  - assert (c = KExit ∨ c ≠ KExit) as [-> |Hc] by (destruct c; by (left; reflexivity) || by (right; discriminate)).
    { exists []. by apply rem_exit. }
    destruct (exec (w n) ctx c s rest) as [s1 r] eqn:E. destruct r as [[ctx1 o1] rest1|e rest1| |].
    + assert (length rest1 < f) as Hf1.
      { pose proof E as E'. apply exec_suffix in E' as [p ->]; [|by intros; apply Hw]. rewrite app_length in Hf. lia. }
      destruct (IH (S n) ctx1 s1 rest1 Hf1) as [h Hh]. exists (TrimSpace line :: h). by eapply rem_done.
    + exists []. by eapply rem_ended.
    + exists []. by eapply rem_ended.
    + exists []. by eapply rem_ended.
Qed.
Lemma recalled_exact w s inp h : (∀ n k, reads (w_sync (w n) k)) → recalled w s inp = h ↔ remembers w 0 "" s inp h.
Proof.
  intros Hw. split.
  - intros <-. destruct (remembers_some w Hw (S (length inp)) 0 "" s inp) as [h Hh]; [lia|].
    unfold recalled. by rewrite (remembers_loop _ _ _ _ _ _ Hw Hh) by lia.
  - intros H. apply (remembers_loop _ _ _ _ _ _ Hw H). lia.
Qed.

Lemma trimmed_suffix a b : a `suffix_of` b → trimmed a `suffix_of` trimmed b.
Proof. intros [p ->]. unfold trimmed. rewrite omap_app. by exists (trimmed p). Qed.
Lemma suffix_sublist {A} (a b : list A) : a `suffix_of` b → a `sublist_of` b.
Proof. intros [p ->]. by apply sublist_inserts_l. Qed.

Lemma remembers_sublist w n ctx s inp h : (∀ n k, reads (w_sync (w n) k)) → remembers w n ctx s inp h → h `sublist_of` trimmed inp.
Proof.
  intros Hw H. induction H; try apply sublist_nil_l; cbn [trimmed omap list_omap].
  - by apply sublist_cons.
  - by apply sublist_skip.
  - apply sublist_skip. etrans; [done|]. apply suffix_sublist, trimmed_suffix. eapply exec_suffix; [|done]. by intros; apply Hw.
Qed.

Lemma parse_command ro ctx line : parse_line ro ctx line = Usage ∨ (∃ c, parse_line ro ctx line = Run c ∧ c ≠ KExit) →
  ∃ cmd ws, Fields (TrimSpace line) = cmd :: ws ∧ is_command cmd ∧ cmd ≠ "exit" ∧ (ro = true → cmd ∈ read_cmds).
Proof.
  unfold parse_line. destruct (Fields (TrimSpace line)) as [|cmd ws]; [intros [?|(c & ? & _)]; discriminate|].
  assert (∀ l, is_cmd l cmd = true → cmd ∈ l) as Hin.
  { intros l (x & Hx & ->%String.eqb_eq)%existsb_exists. by apply elem_of_list_In. }
  destruct (is_cmd read_cmds cmd) eqn:E1.
  - cbn [orb negb]. rewrite andb_false_r. intros H. exists cmd, ws. split; [done|]. split; [left; by apply Hin|]. split; [|intros; by apply Hin].
    intros ->. destruct H as [H|(c & H & Hc)]; [discriminate H|]. injection H as <-. by destruct Hc.
  - destruct (is_cmd write_cmds cmd) eqn:E2; cbn [orb negb]; [|intros [?|(c & ? & _)]; discriminate].
    destruct ro; cbn [andb]; [intros [?|(c & ? & _)]; discriminate|]. intros _. exists cmd, ws. split; [done|]. split; [right; by apply Hin|].
    split; [|done]. intros ->. discriminate E2.
Qed.

Lemma remembers_commands w n ctx s inp h l : (∀ n k, reads (w_sync (w n) k)) → remembers w n ctx s inp h → l ∈ h →
  ∃ line cmd ws, ILine line ∈ inp ∧ l = TrimSpace line ∧ Fields l = cmd :: ws ∧ is_command cmd ∧ cmd ≠ "exit".
Proof.
  intros Hw H. induction H as [n ctx s inp Hi|n ctx s line rest Hp|n ctx s line rest h Hp H IH|n ctx s line rest h Hp H IH
    |n ctx s line rest c s1 ctx1 o1 rest1 h Hp Hc E H IH|n ctx s line rest c s1 r Hp Hc E Hr]; intros Hl; try by apply elem_of_nil in Hl.
  - destruct (IH Hl) as (x & cmd & ws & Hx & Hrest). exists x, cmd, ws. split; [by right|done].
  - apply elem_of_cons in Hl as [-> |Hl].
    + destruct (parse_command (s_readOnly s) ctx line) as (cmd & ws & E & Hc & He & _); [by left|]. exists line, cmd, ws. split; [by left|done].
    + destruct (IH Hl) as (x & cmd & ws & Hx & Hrest). exists x, cmd, ws. split; [by right|done].
  - apply elem_of_cons in Hl as [-> |Hl].
    + destruct (parse_command (s_readOnly s) ctx line) as (cmd & ws & E' & Hk & He & _); [right; by exists c|]. exists line, cmd, ws. split; [by left|done].
    + destruct (IH Hl) as (x & cmd & ws & Hx & Hrest). exists x, cmd, ws. split; [right|done]. apply exec_suffix in E as [p ->]; [|by intros; apply Hw]. apply elem_of_app; by right.
Qed.

Lemma remembers_read w n ctx s inp h l : s_readOnly s = true → remembers w n ctx s inp h → l ∈ h → ∃ cmd ws, Fields l = cmd :: ws ∧ cmd ∈ read_cmds.
Proof.
  intros Hro H. revert Hro. induction H as [n ctx s inp Hi|n ctx s line rest Hp|n ctx s line rest h Hp H IH|n ctx s line rest h Hp H IH
    |n ctx s line rest c s1 ctx1 o1 rest1 h Hp Hc E H IH|n ctx s line rest c s1 r Hp Hc E Hr]; intros Hro Hl; try by apply elem_of_nil in Hl.
  - by apply IH.
  - apply elem_of_cons in Hl as [-> |Hl]; [|by apply IH].
    destruct (parse_command (s_readOnly s) ctx line) as (cmd & ws & E & Hc & He & Hx); [by left|]. exists cmd, ws. auto.
  - apply elem_of_cons in Hl as [-> |Hl].
    + destruct (parse_command (s_readOnly s) ctx line) as (cmd & ws & E' & Hk & He & Hx); [right; by exists c|]. exists cmd, ws. auto.
    + apply IH; [|done]. rewrite Hro in Hp. apply parse_read in Hp. pose proof (leaves_exec (w n) ctx c Hp s rest) as Hv. rewrite E in Hv. cbn [fst] in Hv.
      destruct Hv as (_ & _ & ->). done.
Qed.

Lemma is_cmd_iff l cmd : is_cmd l cmd = true ↔ cmd ∈ l.
Proof.
  unfold is_cmd. rewrite existsb_exists, elem_of_list_In. split; [intros (x & Hx & ->%String.eqb_eq); done|].
  intros H. exists cmd. split; [done|by apply String.eqb_refl].
Qed.
Lemma run_of_unknown ctx cmd args : run_of ctx cmd args = Unknown → ¬ is_command cmd.
Proof.
  assert (∀ args k, (∀ n q r, k n q r ≠ Unknown) → keyed ctx args k ≠ Unknown) as Hk.
  { intros a k H. unfold keyed. destruct (String.length ctx =? 0); destruct a as [|x [|y a]]; done || apply H. }
  assert (∀ args k, (∀ n r, k n r ≠ Unknown) → queried ctx args k ≠ Unknown) as Hq.
  { intros a k H. unfold queried. destruct (String.length ctx =? 0); destruct a as [|x a]; done || apply H. }
  intros H [Hc|Hc]; apply elem_of_list_In in Hc; revert H; cbn [read_cmds write_cmds In] in Hc;
    repeat (destruct Hc as [<-|Hc]; [cbn -[keyed queried String.length Atoi]|]); try (by destruct Hc); try done;
    try (apply Hk; intros); try (apply Hq; intros); try done.
  all: repeat case_match; try done.
Qed.
Lemma unknown_help ro ctx line cmd ws : Fields (TrimSpace line) = cmd :: ws → parse_line ro ctx line = Unknown ↔ ¬ ∃ sig, advertised (cmd :: sig).
Proof.
  intros E. rewrite <- advertised_commands. unfold parse_line. rewrite E. unfold is_command. rewrite <- !is_cmd_iff.
  destruct (is_cmd read_cmds cmd) eqn:E1; destruct (is_cmd write_cmds cmd) eqn:E2; cbn [orb negb]; rewrite ?andb_false_r, ?andb_true_r.
  4: split; [|done]; intros _ [?|?]; discriminate.
  all: split; [|intros H; destruct H; auto]; try (destruct ro; [done|]); intros H%run_of_unknown; destruct H; unfold is_command; rewrite <- !is_cmd_iff; auto.
Qed.
Lemma typed_ne w : typed w → w ≠ "". Proof. by intros [H _]. Qed.
Lemma typed_help ctx cmd sig args : advertised (cmd :: sig) → Forall typed (cmd :: args) → ctx = "" → needs sig ≤ length args ≤ length sig →
  ∃ c, parse_line false ctx (go_join " " (cmd :: args)) = Run c ∧ means ctx cmd args c.
Proof.
  intros Ha Ht -> Hl. destruct (taken cmd sig args Ha) as [c Hc]; [|done|].
  { inversion Ht. eapply Forall_impl; [done|]. apply typed_ne. }
  exists c. rewrite typed_means by done. assert (means "" cmd args c) as Hm by (by apply run_means). split; [|done]. by split.
Qed.
Lemma set_two ctx q more : Forall typed (q :: more) → parse_line false ctx ("set " +:+ " " +:+ go_join " " (q :: more)) = Usage.
Proof.
  intros H. assert (Hne : go_join " " (q :: more) ≠ "").
  { inversion H as [|? ? [Hq _] _]; subst. destruct more; [done|]. rewrite join_cons by done. by destruct q. }
  assert (TrimSpace ("set " +:+ " " +:+ go_join " " (q :: more)) = "set " +:+ " " +:+ go_join " " (q :: more)) as Et.
  { apply TrimSpace_id. intros r t Hr. split.
    - intros E. pose proof (Proof_Utf8.decode_encode r t) as Hd. destruct (space_valid r Hr) as [Hv _]. rewrite <-E in Hd. specialize (Hd Hv).
      change ("set " +:+ " " +:+ go_join " " (q :: more)) with (String (Zbyte 115) ("et " +:+ " " +:+ go_join " " (q :: more))) in Hd.
      rewrite decode_ascii in Hd by done. injection Hd as <- _. discriminate Hr.
    - apply (no_trailing_app "set " (go_join " " (q :: more)) Hne); [|done]. by apply join_no_trailing. }
  unfold parse_line. rewrite Et.
  assert (∃ l, Fields ("set " +:+ " " +:+ go_join " " (q :: more)) = "set" :: l) as [l ->].
  { unfold Fields. change ("set " +:+ " " +:+ go_join " " (q :: more)) with ("set" +:+ String (Zbyte 32) (String (Zbyte 32) (go_join " " (q :: more)))).
    rewrite fields_plain; [|intros x Hx; apply elem_of_list_In in Hx; cbn in Hx; destruct Hx as [<-|[<-|[<-|[]]]]; vm_compute; split; reflexivity].
    change ("" +:+ "set") with "set". cbn [fields_from]. rewrite decode_ascii by done.
    change (IsSpace (byteZ (Zbyte 32))) with true. cbn iota. eexists. reflexivity. }
  change (String.eqb "set" "set") with true. cbv iota zeta.
  change ("set " +:+ " " +:+ go_join " " (q :: more)) with (go_join (String (Zbyte 32) "") ("set" :: "" :: q :: more)).
  rewrite split_join; [|done|].
  - change (is_cmd read_cmds "set" || is_cmd write_cmds "set") with true. cbn [negb andb drop].
    change (run_of ctx "set" ("" :: q :: more)) with (keyed ctx ("" :: q :: more) (λ name key rest,
      if (String.length name =? 0)%nat || (String.length key =? 0)%nat then Usage else Run (KSet name key (go_join " " rest)))).
    unfold keyed. destruct (String.length ctx =? 0); [done|]. change (String.length "" =? 0) with true. by rewrite orb_true_r.
  - intros x Hx. apply elem_of_cons in Hx as [-> |Hx]; [repeat split; discriminate|]. apply elem_of_cons in Hx as [-> |Hx]; [done|].
    rewrite Forall_forall in H. apply plain_lacks. by apply H in Hx as [_ Hx].
Qed.

Lemma recalled_one w s line answers c s1 r : (∀ n k, reads (w_sync (w n) k)) →
  parse_line (s_readOnly s) "" line = Run c → exec (w 0) "" c s answers = (s1, r) → (∀ a rest, r = UOk a rest → rest = []) →
  recalled w s (ILine line :: answers) = [] ∨ recalled w s (ILine line :: answers) = [TrimSpace line].
Proof.
  intros Hw Hp E Hr. assert (c = KExit ∨ c ≠ KExit) as [-> |Hc] by (destruct c; by (left; reflexivity) || by (right; discriminate)).
  { left. apply recalled_exact; [done|]. by apply rem_exit. }
  destruct r as [[ctx1 o1] rest1|e rest1| |].
  - right. apply recalled_exact; [done|]. specialize (Hr _ _ eq_refl) as ->. eapply rem_done; [done..|]. by constructor.
  - left. apply recalled_exact; [done|]. by eapply rem_ended.
  - left. apply recalled_exact; [done|]. by eapply rem_ended.
  - left. apply recalled_exact; [done|]. by eapply rem_ended.
Qed.

Lemma recalled_set w s m q k t u b rest : (∀ n k, reads (w_sync (w n) k)) → s_readOnly s = false → ready (w 0) s m →
  picks (w_lower (w 0)) m q u → m !! u = Some b → Forall typed [q; k; t] → ¬ protected_key k → (k = "url" → w_url (w 0) t = GoodUrl) →
  ∃ h, recalled w s (ILine (go_join " " ["set"; q; k; t]) :: rest) = go_join " " ["set"; q; k; t] :: h.
Proof.
  intros Hw Hro Hr Hp Hb Ht Hk Hu.
  assert (Forall typed ["set"; q; k; t]) as Ht'.
  { constructor; [|done]. split; [done|]. intros x Hx. apply elem_of_list_In in Hx. cbn in Hx. destruct Hx as [<-|[<-|[<-|[]]]]; vm_compute; split; reflexivity. }
  assert (q ≠ "" ∧ k ≠ "" ∧ t ≠ "") as (Hq0 & Hk0 & Ht0).
  { rewrite Forall_forall in Ht. repeat split; apply typed_ne, Ht; repeat first [apply elem_of_list_here|apply elem_of_list_further]. }
  destruct (set_stores (w 0) s m q k t u b rest Hr Hp Hb Hk Ht0 Hu) as (s' & E & H).
  destruct (remembers_some w Hw (S (length rest)) 1 "" s' rest) as [h Hh]; [lia|]. exists h. apply recalled_exact; [done|].
  rewrite <- (TrimSpace_id (go_join " " ["set"; q; k; t])) at 2 by by apply join_tight.
  apply (rem_done w 0 "" s (go_join " " ["set"; q; k; t]) rest (KSet q k t) s' "" [Report k t] rest h); [|done| |done].
  - apply typed_means; [done|]. split; [|rewrite Hro; done]. change t with (go_join " " [t]) at 2. eapply means_set; [done|done|]. by left.
  - by apply showing_ok.
Qed.
