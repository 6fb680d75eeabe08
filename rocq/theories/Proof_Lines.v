(** Proofs about command lines. *)
From Verif Require Import Spec_Lines Proof_GoStr Proof_Utf8 Proof_Dialogue Proof_Trim Proof_Repl2 Proof_Crypt2 Proof_Blobs Proof_Repl3 Proof_Repl6.
From Coq Require Import Lia.
From stdpp Require Import options.
Import Model_GoStr Proof_Utf8.
#[local] Open Scope nat_scope.

Lemma len0 s : (String.length s =? 0) = true ↔ s = "".
Proof. destruct s; done. Qed.
Lemma keyed_run ctx args k c : keyed ctx args k = Run c ↔ ∃ q key rest, whose ctx args q (key :: rest) ∧ k q key rest = Run c.
Proof.
  unfold keyed, whose. destruct (String.length ctx =? 0) eqn:E.
  - apply len0 in E as ->. split.
    + destruct args as [|n [|key rest]]; [done|done|]. intros H. exists n, key, rest. split; [by left|done].
    + intros (q & key & rest & [[_ ->]|[Hc _]] & H); done.
  - assert (ctx ≠ "") as Hne by (intros ->; done). split.
    + destruct args as [|key rest]; [done|]. intros H. exists ctx, key, rest. split; [by right|done].
    + intros (q & key & rest & [[Hc _]|(_ & -> & <-)] & H); done.
Qed.
Lemma queried_run ctx args k c : queried ctx args k = Run c ↔ ∃ q rest, whose ctx args q rest ∧ k q rest = Run c.
Proof.
  unfold queried, whose. destruct (String.length ctx =? 0) eqn:E.
  - apply len0 in E as ->. split.
    + destruct args as [|n rest]; [done|]. intros H. exists n, rest. split; [by left|done].
    + intros (q & rest & [[_ ->]|[Hc _]] & H); done.
  - assert (ctx ≠ "") as Hne by (intros ->; done). split.
    + intros H. exists ctx, args. split; [by right|done].
    + intros (q & rest & [[Hc _]|(_ & -> & <-)] & H); done.
Qed.

Ltac runs := repeat match goal with
  | H : Run _ = Run _ |- _ => injection H as H; subst
  | H : keyed _ _ _ = Run _ |- _ => apply keyed_run in H as (? & ? & ? & ? & H)
  | H : queried _ _ _ = Run _ |- _ => apply queried_run in H as (? & ? & ? & H)
  end.

Lemma means_run ctx cmd args c : means ctx cmd args c → run_of ctx cmd args = Run c.
Proof.
  intros H. destruct H;
    match goal with
    | H : _ ∈ ["user"; "pass"; "email"; "totp"] |- _ => idtac
    | |- run_of ?ctx ?cmd ?args = _ => try done
    end.
  - change (run_of ctx "rmk" args) with (keyed ctx args (λ n k _, Run (KRmk n k))). apply keyed_run. eauto 6.
  - change (run_of ctx "get" args) with (getCopy ctx "get" args). apply keyed_run. exists q, k, []. done.
  - change (run_of ctx "get" args) with (getCopy ctx "get" args). apply keyed_run. exists q, k, (i :: l). by rewrite H0.
  - change (run_of ctx "cp" args) with (getCopy ctx "cp" args). apply keyed_run. exists q, k, []. done.
  - change (run_of ctx "cp" args) with (getCopy ctx "cp" args). apply keyed_run. exists q, k, (i :: l). by rewrite H0.
  - assert (run_of ctx cmd args = quickCopy ctx cmd args) as ->.
    { apply elem_of_list_In in H. cbn in H. by destruct H as [<-|[<-|[<-|[<-|[]]]]]. }
    apply queried_run. eauto.
  - change (run_of ctx "login" (q :: l)) with (if String.length q =? 0 then Usage else Run (KLogin q)). by destruct q.
  - change (run_of ctx "login" []) with (if String.length ctx =? 0 then Usage else Run (KLogin ctx)). by destruct ctx.
  - change (run_of ctx "set" args) with (keyed ctx args (λ name key rest,
      if (String.length name =? 0) || (String.length key =? 0) then Usage else Run (KSet name key (go_join " " rest)))).
    apply keyed_run. exists q, k, l. split; [done|]. by destruct q, k.
  - change (run_of ctx "edit" args) with (keyed ctx args (λ n k _, Run (KEdit n k))). apply keyed_run. eauto 6.
  - change (run_of ctx "open" args) with (queried ctx args (λ n _, Run (KOpen n))). apply queried_run. eauto.
  - change (run_of ctx "label" args) with (queried ctx args (λ n _, Run (KLabel n))). apply queried_run. eauto.
  - change (run_of ctx "rmlabel" args) with (keyed ctx args (λ n k _, Run (KRmLabel n k))). apply keyed_run. eauto 6.
  - apply queried_run. exists q, []. done.
  - apply queried_run. exists q, (i :: l). by rewrite H0.
  - apply queried_run. exists q, (i :: l). split; [done|]. destruct (Atoi i) as [n| |] eqn:E; [by destruct (H0 n)|done|done].
  - change (run_of ctx "dump" args) with (queried ctx args (λ n _, Run (KDump n))). apply queried_run. eauto.
Qed.

Lemma run_means ctx cmd args c : run_of ctx cmd args = Run c → means ctx cmd args c.
Proof.
  unfold run_of.
  destruct (String.eqb_spec cmd "passwd") as [->|_]; [intros [= <-]; destruct args; constructor|].
  destruct (String.eqb_spec cmd "adduser") as [->|_]; [destruct args; [done|]; intros [= <-]; constructor|].
  destruct (String.eqb_spec cmd "rekey") as [->|_]; [intros [= <-]; destruct args; constructor|].
  destruct (String.eqb_spec cmd "rekeyall") as [->|_]; [intros [= <-]; constructor|].
  destruct (String.eqb_spec cmd "add") as [->|_]; [destruct args; [done|]; intros [= <-]; constructor|].
  destruct (String.eqb_spec cmd "mv") as [->|_]; [destruct args as [|? [|? ?]]; [done|done|]; intros [= <-]; constructor|].
  destruct (String.eqb_spec cmd "rm") as [->|_]; [destruct args; [done|]; intros [= <-]; constructor|].
  destruct (String.eqb_spec cmd "rmk") as [->|_]; [intros H; runs; by econstructor|].
  destruct (String.eqb_spec cmd "ls") as [->|_]; [intros [= <-]; destruct args; constructor|].
  destruct (String.eqb_spec cmd "cd") as [->|_]; [destruct args as [|? [|? ?]]; [| |done]; intros [= <-]; constructor|].
  destruct (String.eqb_spec cmd "cp") as [->|_].
  { cbn [orb]. unfold getCopy. intros H. runs. destruct x1 as [|i l]; [runs; by apply means_cp|].
    destruct (Atoi i) as [n| |] eqn:E; [|done|done]. runs. by eapply means_cp_index. }
  destruct (String.eqb_spec cmd "get") as [->|_].
  { cbn [orb]. unfold getCopy. intros H. runs. destruct x1 as [|i l]; [runs; by apply means_get|].
    destruct (Atoi i) as [n| |] eqn:E; [|done|done]. runs. by eapply means_get_index. }
  cbn [orb].
  destruct (String.eqb cmd KeyUser || String.eqb cmd KeyPass || String.eqb cmd KeyEmail || String.eqb cmd KeyTwoFactor) eqn:Eq.
  { unfold quickCopy. intros H. runs. eapply means_quick; [|done]. rewrite !orb_true_iff, !String.eqb_eq in Eq.
    destruct Eq as [[[->| ->]| ->]| ->]; unfold KeyUser, KeyPass, KeyEmail, KeyTwoFactor; set_solver. }
  destruct (String.eqb_spec cmd "login") as [->|_].
  { cbv zeta. destruct args as [|q l].
    - destruct (String.length ctx =? 0) eqn:E; [done|]. intros [= <-]. apply means_login_ctx. by intros ->.
    - destruct (String.length q =? 0) eqn:E; [done|]. intros [= <-]. apply means_login. by intros ->. }
  destruct (String.eqb_spec cmd "set") as [->|_].
  { intros H. runs. destruct (_ || _) eqn:E in H; [done|]. runs. apply orb_false_elim in E as [E1 E2].
    apply means_set; [by intros ->|by intros ->|done]. }
  destruct (String.eqb_spec cmd "edit") as [->|_]; [intros H; runs; by econstructor|].
  destruct (String.eqb_spec cmd "open") as [->|_]; [intros H; runs; by econstructor|].
  destruct (String.eqb_spec cmd "label") as [->|_]; [intros H; runs; by econstructor|].
  destruct (String.eqb_spec cmd "rmlabel") as [->|_]; [intros H; runs; by econstructor|].
  destruct (String.eqb_spec cmd "labels") as [->|_]; [destruct args; [done|]; intros [= <-]; constructor|].
  destruct (String.eqb_spec cmd "show") as [->|_].
  { intros H. runs. destruct x0 as [|i l]; [by apply means_show|].
    destruct (Atoi i) as [n| |] eqn:E; [by eapply means_show_number|eapply means_show_other; [done|by rewrite E]..]. }
  destruct (String.eqb_spec cmd "sync") as [->|_]; [intros [= <-]; destruct args; constructor|].
  destruct (String.eqb_spec cmd "addsync") as [->|_]; [destruct args; [done|]; intros [= <-]; constructor|].
  destruct (String.eqb_spec cmd "dump") as [->|_]; [intros H; runs; by econstructor|].
  destruct (String.eqb_spec cmd "dumpall") as [->|_]; [intros [= <-]; constructor|].
  destruct (String.eqb_spec cmd "help") as [->|_]; [intros [= <-]; constructor|].
  destruct (String.eqb_spec cmd "exit") as [->|_]; [intros [= <-]; constructor|].
  done.
Qed.

Lemma is_cmd_in l cmd : is_cmd l cmd = true ↔ cmd ∈ l.
Proof.
  unfold is_cmd. rewrite existsb_exists. split.
  - intros (x & Hx & ->%String.eqb_eq). by apply elem_of_list_In.
  - intros H. exists cmd. split; [by apply elem_of_list_In|apply String.eqb_refl].
Qed.
Lemma means_known ctx cmd args c : means ctx cmd args c → is_cmd read_cmds cmd || is_cmd write_cmds cmd = true.
Proof. intros H. destruct H; try done. apply elem_of_list_In in H. cbn in H. by destruct H as [<-|[<-|[<-|[<-|[]]]]]. Qed.
Lemma parse_means ro ctx line cmd rest c : Fields (TrimSpace line) = cmd :: rest →
  parse_line ro ctx line = Run c ↔ means ctx cmd (words_after line cmd rest) c ∧ (ro = true → cmd ∈ reading).
Proof.
  intros Hf. unfold parse_line. cbv zeta. rewrite Hf. fold (words_after line cmd rest).
  change reading with read_cmds. rewrite <-is_cmd_in. split.
  - destruct (is_cmd read_cmds cmd || is_cmd write_cmds cmd) eqn:E; [|done]. cbn [negb].
    destruct ro; cbn [andb].
    + destruct (is_cmd read_cmds cmd) eqn:E2; [|done]. cbn [negb]. intros H%run_means. done.
    + intros H%run_means. done.
  - intros [H Hro]. rewrite (means_known _ _ _ _ H). cbn [negb]. destruct ro; cbn [andb].
    + rewrite Hro by done. cbn [negb]. by apply means_run.
    + by apply means_run.
Qed.
Lemma parse_unknown ro ctx line cmd rest : Fields (TrimSpace line) = cmd :: rest →
  (∀ c args, ¬ means ctx cmd args c) → parse_line ro ctx line ≠ Skip ∧ ∀ c, parse_line ro ctx line ≠ Run c.
Proof.
  intros Hf H. split; [|intros c E; apply (parse_means ro ctx line cmd rest c Hf) in E as [E _]; by eapply H].
  unfold parse_line. cbv zeta. rewrite Hf. destruct (negb _); [done|]. destruct (ro && _); [done|].
  unfold run_of, getCopy, quickCopy, keyed, queried. repeat case_match; done.
Qed.

(** ** Words typed with one blank between them *)
Lemma plain_tight w r t : plain w → w ≠ "" → IsSpace r = true → w ≠ t +:+ encode_rune r.
Proof.
  intros Hp Hne Hr ->. destruct (encode_rune r) as [|x y] eqn:E; [by apply (space_nonempty r Hr)|].
  assert (∃ z, z ∈ str_bytes (encode_rune r) ∧ ¬ (32 < byteZ z < 127)%Z) as (z & Hz & Hb).
  { apply IsSpace_spaces in Hr. unfold spaces in Hr. exists x. split; [rewrite E; left|]. clear -E Hr.
    repeat (apply elem_of_cons in Hr as [->|Hr]; [vm_compute in E; injection E as <- _; vm_compute; intros [? ?]; congruence|]). by apply elem_of_nil in Hr. }
  apply Hb, Hp. rewrite <-E, str_bytes_app. apply elem_of_app. by right.
Qed.
Lemma plain_lacks w : plain w → lacks (Zbyte 32) w.
Proof.
  induction w as [|x w IH]; [done|]. intros [Hx Hp]%plain_cons. split; [|by apply IH]. intros ->. vm_compute in Hx. destruct Hx; congruence.
Qed.
Lemma join_no_trailing ws : ws ≠ [] → Forall typed ws → no_trailing (go_join " " ws).
Proof.
  induction ws as [|w ws IH]; [done|]. intros _ H. apply Forall_cons in H as [[Hne Hp] H]. destruct ws as [|w2 ws].
  - intros r t Hr. by apply plain_tight.
  - rewrite join_cons by done. change (w +:+ " " +:+ go_join " " (w2 :: ws)) with (w +:+ String (Zbyte 32) (go_join " " (w2 :: ws))).
    apply no_trailing_app; [|by apply IH]. apply Forall_cons in H as [[Hne2 _] _].
    destruct ws; [done|]. rewrite join_cons by done. by destruct w2.
Qed.
Lemma join_tight ws : ws ≠ [] → Forall typed ws → tight (go_join " " ws).
Proof.
  intros Hn H r t Hr. split; [|by apply join_no_trailing].
  destruct ws as [|w ws]; [done|]. apply Forall_cons in H as [[Hne Hp] _].
  assert (∃ x y, go_join " " (w :: ws) = String x y ∧ (32 < byteZ x < 127)%Z) as (x & y & -> & Hx).
  { destruct w as [|x w]; [done|]. apply plain_cons in Hp as [Hx _]. exists x.
    destruct ws; [by eexists|]. rewrite join_cons by done. by eexists. }
  intros E. pose proof (decode_encode r t) as Hd. destruct (space_valid r Hr) as [Hv _]. rewrite <-E in Hd. specialize (Hd Hv).
  rewrite decode_ascii in Hd by lia. injection Hd as <- _. by rewrite IsSpace_plain in Hr by done.
Qed.
Lemma Fields_join ws : Forall typed ws → Fields (go_join " " ws) = ws.
Proof.
  unfold Fields. induction 1 as [|w ws [Hne Hp] H IH]; [done|]. destruct ws as [|w2 ws].
  - change (go_join " " [w]) with w. rewrite <-(sapp_nil w) at 1. rewrite fields_plain by done. by destruct w.
  - rewrite join_cons by done. rewrite fields_plain by done. change ("" +:+ w) with w.
    change (" " +:+ ?s) with (String (Zbyte 32) s). cbn [fields_from]. rewrite decode_ascii by done.
    change (IsSpace (byteZ (Zbyte 32))) with true. cbn iota. change (1 - 1) with 0. rewrite (fields_b _ true false), IH. by destruct w.
Qed.
Lemma typed_line cmd args : Forall typed (cmd :: args) →
  Fields (TrimSpace (go_join " " (cmd :: args))) = cmd :: args ∧ words_after (go_join " " (cmd :: args)) cmd args = args.
Proof.
  intros H. unfold words_after. rewrite TrimSpace_id by by apply join_tight. split; [by apply Fields_join|].
  destruct (String.eqb cmd "set"); [|done]. change " " with (String (Zbyte 32) ""). rewrite split_join; [done|done|].
  rewrite Forall_forall in H. intros w Hw. apply plain_lacks. by apply H in Hw as [_ Hw].
Qed.
Lemma typed_means ro ctx cmd args c : Forall typed (cmd :: args) →
  parse_line ro ctx (go_join " " (cmd :: args)) = Run c ↔ means ctx cmd args c ∧ (ro = true → cmd ∈ reading).
Proof. intros H. destruct (typed_line cmd args H) as [H1 H2]. rewrite (parse_means ro ctx _ cmd args c H1). by rewrite H2. Qed.
Lemma line_step f w n ctx shown s cmd args rest c s' ctx' o rest' :
  Forall typed (cmd :: args) → means ctx cmd args c → c ≠ KExit → s_readOnly s = false ∨ cmd ∈ reading →
  exec (w n) ctx c s rest = (s', UOk (ctx', o) rest') →
  run_loop (S f) w n ctx shown s (ILine (go_join " " (cmd :: args)) :: rest) = run_loop f w (S n) ctx' (shown ++ o) s' rest'.
Proof.
  intros Ht Hm Hc Hro E. eapply loop_step; [|done|exact E]. apply typed_means; [done|]. split; [done|]. intros Hr.
  destruct Hro as [Hro|]; [congruence|done].
Qed.
Lemma showing_ok ctx x s s' (o : list out) inp rest : x s inp = (s', UOk o rest) → showing ctx x s inp = (s', UOk (ctx, o) rest).
Proof. intros E. unfold showing. by rewrite (Proof_Session3.C_ok _ _ _ _ s' o rest) by exact E. Qed.
Lemma blank_skip ro ctx line : parse_line ro ctx line = Skip ↔ Fields (TrimSpace line) = [].
Proof.
  unfold parse_line. cbv zeta. destruct (Fields (TrimSpace line)) as [|cmd rest]; [done|]. split; [|done].
  destruct (negb _); [done|]. destruct (ro && _); [done|].
  unfold run_of, getCopy, quickCopy, keyed, queried. repeat case_match; done.
Qed.
Lemma cd_enters w s m q u n inp ctx : ready w s m → picks (w_lower w) m q u → called m u n →
  ∃ s', exec w ctx (KCd (Some q)) s inp = (s', UOk (n, []) inp) ∧ unchanged s s'.
Proof.
  intros Hr Hp (b & Hb & Hn). destruct (found_entry w s m q u b inp Hr Hp Hb) as (s1 & s2 & E1 & Eu & E2 & U & R).
  exists s2. split; [|done]. cbn [exec]. finding s1 s2 u b inp E1 Eu E2.
  rewrite (Proof_Session3.C_ok _ _ _ _ s2 n inp); [done|]. by rewrite (Name_ok _ _ Hn).
Qed.
Lemma cd_none w s m q inp ctx : ready w s m → (∀ u, ¬ picks (w_lower w) m q u) →
  ∃ s', exec w ctx (KCd (Some q)) s inp = (s', UOk (ctx, [Note]) inp) ∧ unchanged s s'.
Proof.
  intros Hr Hp. destruct (findq_none w s m q inp Hr Hp) as (s1 & E1 & U1 & R1). exists s1. split; [|done].
  cbn [exec]. by rewrite (Proof_Session3.C_ok _ _ _ _ s1 "" inp) by exact E1.
Qed.
