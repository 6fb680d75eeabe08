(** C78: a typed line does what its words say. *)
From Verif Require Import Spec_Lines Spec_Repl Proof_TxLog Proof_Blobs Proof_SessionEx Proof_Repl2 Proof_Repl3 Proof_Repl4 Proof_Repl6 Proof_Repl Proof_Lines Proof_Lines2.
From stdpp Require Import options.
Import Model_GoStr.
#[local] Open Scope nat_scope.

(** A line runs the command its words mean, if the session may be written or the
    command only reads; no line runs anything else. *)
Theorem C78_means : ∀ ro ctx line cmd rest c,
  Fields (TrimSpace line) = cmd :: rest →
  parse_line ro ctx line = Run c ↔ means ctx cmd (words_after line cmd rest) c ∧ (ro = true → cmd ∈ reading).
Proof. exact parse_means. Qed.
Print Assumptions C78_means.

(** Printable words with a blank between them are read as these words, also by
    set. *)
Theorem C78_words : ∀ cmd args, Forall typed (cmd :: args) →
  Fields (TrimSpace (go_join " " (cmd :: args))) = cmd :: args ∧ words_after (go_join " " (cmd :: args)) cmd args = args.
Proof. exact typed_line. Qed.
Print Assumptions C78_words.

Theorem C78_typed : ∀ ro ctx cmd args c, Forall typed (cmd :: args) →
  parse_line ro ctx (go_join " " (cmd :: args)) = Run c ↔ means ctx cmd args c ∧ (ro = true → cmd ∈ reading).
Proof. exact typed_means. Qed.
Print Assumptions C78_typed.

(** A line means one thing. *)
Theorem C78_one_meaning : ∀ ctx cmd args c1 c2, means ctx cmd args c1 → means ctx cmd args c2 → c1 = c2.
Proof. intros ctx cmd args c1 c2 H1%means_run H2%means_run. congruence. Qed.
Print Assumptions C78_one_meaning.

(** Only a line without words is skipped. *)
Theorem C78_skip : ∀ ro ctx line, parse_line ro ctx line = Skip ↔ Fields (TrimSpace line) = [].
Proof. exact blank_skip. Qed.
Print Assumptions C78_skip.

(** Lines that run nothing change nothing and the loop goes on. *)
Theorem C78_nothing : ∀ f w n ctx shown s line rest,
  (∀ c, parse_line (s_readOnly s) ctx line ≠ Run c) →
  ∃ n' shown', run_loop (S f) w n ctx shown s (ILine line :: rest) = run_loop f w n' ctx shown' s rest.
Proof.
  intros f w n ctx shown s line rest H. cbn [run_loop]. destruct (parse_line (s_readOnly s) ctx line) as [| | | |c] eqn:E; eauto.
  by destruct (H c).
Qed.
Print Assumptions C78_nothing.

(** ** In the command loop

    [f]: the lines still to be read; [n] counts the commands; [shown] is what was
    shown so far. *)

(** get shows the value, and only get *)
Theorem C78_get : ∀ f w n shown s m q k u b v rest,
  Forall typed [q; k] → ready (w n) s m → picks (w_lower (w n)) m q u → m !! u = Some b → b !! k = Some v → k ≠ "totp" → k ≠ "updated" →
  ∃ s', run_loop (S f) w n "" shown s (ILine (go_join " " ["get"; q; k]) :: rest) = run_loop f w (S n) "" (shown ++ [Value v]) s' rest ∧ unchanged s s'.
Proof.
  intros f w n shown s m q k u b v rest Ht Hr Hp Hb Hv H1 H2.
  destruct (get_gives (w n) s m q k (-1) false u b rest Hr Hp Hb H1 H2) as (s' & E & U). exists s'. split; [|done].
  eapply (line_step f w n "" shown s "get" [q; k] rest (KGet q k (-1) false)).
  - constructor; [split; [done|]|done]. intros x Hx. repeat (apply elem_of_cons in Hx as [->|Hx]; [by vm_compute|]). by apply elem_of_nil in Hx.
  - apply means_get. by left.
  - done.
  - right. compute_dec.
  - cbn [exec]. rewrite Hv in E. exact (showing_ok "" _ s s' _ rest rest E).
Qed.
Print Assumptions C78_get.

(** cp copies it and shows nothing *)
Theorem C78_cp : ∀ f w n shown s m q k u b v rest,
  Forall typed [q; k] → ready (w n) s m → picks (w_lower (w n)) m q u → m !! u = Some b → b !! k = Some v → k ≠ "totp" → k ≠ "updated" →
  ∃ s', run_loop (S f) w n "" shown s (ILine (go_join " " ["cp"; q; k]) :: rest) = run_loop f w (S n) "" (shown ++ [Clip k v]) s' rest ∧ unchanged s s'.
Proof.
  intros f w n shown s m q k u b v rest Ht Hr Hp Hb Hv H1 H2.
  destruct (get_gives (w n) s m q k (-1) true u b rest Hr Hp Hb H1 H2) as (s' & E & U). exists s'. split; [|done].
  eapply (line_step f w n "" shown s "cp" [q; k] rest (KGet q k (-1) true)).
  - constructor; [split; [done|]|done]. intros x Hx. repeat (apply elem_of_cons in Hx as [->|Hx]; [by vm_compute|]). by apply elem_of_nil in Hx.
  - apply means_cp. by left.
  - done.
  - right. compute_dec.
  - cbn [exec]. rewrite Hv in E. exact (showing_ok "" _ s s' _ rest rest E).
Qed.
Print Assumptions C78_cp.

(** so does the name of a key alone, also with a context entry *)
Theorem C78_quick : ∀ f w n ctx shown s m k args q l u b v rest,
  k ∈ ["user"; "pass"; "email"] → whose ctx args q l → Forall typed args → ready (w n) s m → picks (w_lower (w n)) m q u → m !! u = Some b → b !! k = Some v →
  ∃ s', run_loop (S f) w n ctx shown s (ILine (go_join " " (k :: args)) :: rest) = run_loop f w (S n) ctx (shown ++ [Clip k v]) s' rest ∧ unchanged s s'.
Proof.
  intros f w n ctx shown s m k args q l u b v rest Hk Hw Ht Hr Hp Hb Hv.
  assert (k ≠ "totp" ∧ k ≠ "updated" ∧ typed k ∧ k ∈ reading ∧ k ∈ ["user"; "pass"; "email"; "totp"]) as (H1 & H2 & H3 & H4 & H5).
  { apply elem_of_list_In in Hk. cbn in Hk. destruct Hk as [<-|[<-|[<-|[]]]]; (split; [done|]; split; [done|]; split; [|split; compute_dec]);
      (split; [done|]); intros x Hx; repeat (apply elem_of_cons in Hx as [->|Hx]; [by vm_compute|]); by apply elem_of_nil in Hx. }
  destruct (get_gives (w n) s m q k (-1) true u b rest Hr Hp Hb H1 H2) as (s' & E & U). exists s'. split; [|done].
  eapply (line_step f w n ctx shown s k args rest (KGet q k (-1) true)).
  - by constructor.
  - by eapply means_quick.
  - done.
  - by right.
  - cbn [exec]. rewrite Hv in E. exact (showing_ok ctx _ s s' _ rest rest E).
Qed.
Print Assumptions C78_quick.

(** mv renames *)
Theorem C78_mv : ∀ f w n ctx shown s m src dst u b rest,
  Forall typed [src; dst] → s_readOnly s = false → ready (w n) s m → m !! u = Some b → b !! "name" = Some src → (∀ x, ¬ called m x dst) →
  ∃ s', run_loop (S f) w n ctx shown s (ILine (go_join " " ["mv"; src; dst]) :: rest) = run_loop f w (S n) ctx (shown ++ [Moved src dst]) s' rest ∧
    became s s' (<[u := <["name" := dst]> (stamped (e_now (w_env (w n) 1) 0) b)]> m).
Proof.
  intros f w n ctx shown s m src dst u b rest Ht Hro Hr Hb Hn Hf.
  destruct (mv_moves (w n) s m src dst u b rest Hr Hb Hn Hf) as (s' & E & U). exists s'. split; [|done].
  eapply (line_step f w n ctx shown s "mv" [src; dst] rest (KMv src dst)).
  - constructor; [split; [done|]|done]. intros x Hx. repeat (apply elem_of_cons in Hx as [->|Hx]; [by vm_compute|]). by apply elem_of_nil in Hx.
  - constructor.
  - done.
  - by left.
  - cbn [exec]. exact (showing_ok ctx _ s s' _ rest rest E).
Qed.
Print Assumptions C78_mv.

(** rmk deletes the key of the entry, or of the context entry *)
Theorem C78_rmk : ∀ f w n ctx shown s m args q k l u b v rest,
  whose ctx args q (k :: l) → Forall typed args → s_readOnly s = false → ready (w n) s m → picks (w_lower (w n)) m q u → m !! u = Some b → b !! k = Some v →
  k ≠ "name" → k ≠ "updated" →
  ∃ s', run_loop (S f) w n ctx shown s (ILine (go_join " " ("rmk" :: args)) :: rest) = run_loop f w (S n) ctx (shown ++ [Deleted k]) s' rest ∧
    became s s' (<[u := delete k (stamped (e_now (w_env (w n) 1) 0) b)]> m).
Proof.
  intros f w n ctx shown s m args q k l u b v rest Hw Ht Hro Hr Hp Hb Hv H1 H2.
  destruct (rmk_deletes (w n) s m q k u b v rest Hr Hp Hb Hv H1 H2) as (s' & E & U). exists s'. split; [|done].
  eapply (line_step f w n ctx shown s "rmk" args rest (KRmk q k)).
  - constructor; [split; [done|]|done]. intros x Hx. repeat (apply elem_of_cons in Hx as [->|Hx]; [by vm_compute|]). by apply elem_of_nil in Hx.
  - by eapply means_rmk.
  - done.
  - by left.
  - cbn [exec]. exact (showing_ok ctx _ s s' _ rest rest E).
Qed.
Print Assumptions C78_rmk.

(** cd makes the entry found the context entry; the context holds its name, not
    the query *)
Theorem C78_cd : ∀ f w n ctx shown s m q u x rest,
  typed q → ready (w n) s m → picks (w_lower (w n)) m q u → called m u x →
  ∃ s', run_loop (S f) w n ctx shown s (ILine (go_join " " ["cd"; q]) :: rest) = run_loop f w (S n) x shown s' rest ∧ unchanged s s'.
Proof.
  intros f w n ctx shown s m q u x rest Ht Hr Hp Hc.
  destruct (cd_enters (w n) s m q u x rest ctx Hr Hp Hc) as (s' & E & U). exists s'. split; [|done].
  rewrite (line_step f w n ctx shown s "cd" [q] rest (KCd (Some q)) s' x [] rest); [by rewrite app_nil_r|..|done].
  - constructor; [split; [done|]|by constructor]. intros y Hx. repeat (apply elem_of_cons in Hx as [->|Hx]; [by vm_compute|]). by apply elem_of_nil in Hx.
  - constructor.
  - done.
  - right. compute_dec.
Qed.
Print Assumptions C78_cd.

(** without a query it leaves it; a query that finds nothing changes nothing *)
Theorem C78_cd_out : ∀ f w n ctx shown s rest,
  run_loop (S f) w n ctx shown s (ILine "cd" :: rest) = run_loop f w (S n) "" shown s rest.
Proof.
  intros f w n ctx shown s rest. change "cd" with (go_join " " ["cd"]).
  rewrite (line_step f w n ctx shown s "cd" [] rest (KCd None) s "" [] rest); [by rewrite app_nil_r|..|done].
  - constructor; [split; [done|]|done]. intros x Hx. repeat (apply elem_of_cons in Hx as [->|Hx]; [by vm_compute|]). by apply elem_of_nil in Hx.
  - constructor.
  - done.
  - right. compute_dec.
Qed.
Print Assumptions C78_cd_out.
Theorem C78_cd_none : ∀ f w n ctx shown s m q rest,
  typed q → ready (w n) s m → (∀ u, ¬ picks (w_lower (w n)) m q u) →
  ∃ s', run_loop (S f) w n ctx shown s (ILine (go_join " " ["cd"; q]) :: rest) = run_loop f w (S n) ctx (shown ++ [Note]) s' rest ∧ unchanged s s'.
Proof.
  intros f w n ctx shown s m q rest Ht Hr Hp.
  destruct (cd_none (w n) s m q rest ctx Hr Hp) as (s' & E & U). exists s'. split; [|done].
  eapply (line_step f w n ctx shown s "cd" [q] rest (KCd (Some q))).
  - constructor; [split; [done|]|by constructor]. intros y Hx. repeat (apply elem_of_cons in Hx as [->|Hx]; [by vm_compute|]). by apply elem_of_nil in Hx.
  - constructor.
  - done.
  - right. compute_dec.
  - exact E.
Qed.
Print Assumptions C78_cd_none.

(** ls lists the names that match *)
Theorem C78_ls : ∀ f w n ctx shown s m q rest,
  typed q → ready (w n) s m →
  ∃ s' o, run_loop (S f) w n ctx shown s (ILine (go_join " " ["ls"; q]) :: rest) = run_loop f w (S n) ctx (shown ++ o) s' rest ∧ unchanged s s' ∧
    lists m (λ b, ∃ x, b !! "name" = Some x ∧ name_matches (w_lower (w n)) q x) o.
Proof.
  intros f w n ctx shown s m q rest Ht Hr.
  destruct (ls_lists (w n) s m q rest Hr) as (s' & o & E & U & L). exists s', o. split; [|done].
  eapply (line_step f w n ctx shown s "ls" [q] rest (KLs q)).
  - constructor; [split; [done|]|by constructor]. intros y Hx. repeat (apply elem_of_cons in Hx as [->|Hx]; [by vm_compute|]). by apply elem_of_nil in Hx.
  - constructor.
  - done.
  - right. compute_dec.
  - cbn [exec]. exact (showing_ok ctx _ s s' _ rest rest E).
Qed.
Print Assumptions C78_ls.

(** exit ends the loop without an error *)
Theorem C78_exit : ∀ f w n ctx shown s rest, run_loop (S f) w n ctx shown s (ILine "exit" :: rest) = (s, shown, UOk tt rest).
Proof.
  intros f w n ctx shown s rest. cbn [run_loop]. assert (parse_line (s_readOnly s) ctx "exit" = Run KExit) as ->; [|done].
  change "exit" with (go_join " " ["exit"]). apply typed_means; [|split; [constructor|intros _; compute_dec]].
  constructor; [split; [done|]|done]. intros x Hx. repeat (apply elem_of_cons in Hx as [->|Hx]; [by vm_compute|]). by apply elem_of_nil in Hx.
Qed.
Print Assumptions C78_exit.

Lemma ex_typed w : w ∈ ["mail"; "pass"; "post"] → typed w.
Proof.
  intros H. apply elem_of_list_In in H. cbn in H. destruct H as [<-|[<-|[<-|[]]]]; (split; [done|]); intros x Hx;
    repeat (apply elem_of_cons in Hx as [->|Hx]; [by vm_compute|]); by apply elem_of_nil in Hx.
Qed.
Example C78_example :
  means "" "get" ["mail"; "pass"] (KGet "mail" "pass" (-1) false) ∧ means "mail" "get" ["pass"] (KGet "mail" "pass" (-1) false) ∧
  means "" "pass" ["mail"] (KGet "mail" "pass" (-1) true) ∧ means "mail" "pass" [] (KGet "mail" "pass" (-1) true) ∧
  Forall typed ["mail"; "pass"] ∧ ready ex_world se_single se_m ∧ picks toy_lower se_m "mail" "u1" ∧ se_m !! "u1" = Some se_mail ∧
  se_mail !! "pass" = Some "hunter2" ∧ se_mail !! "name" = Some "mail" ∧ (∀ x, ¬ called se_m x "post").
Proof.
  split; [apply means_get; by left|]. split; [apply means_get; right; done|].
  split; [eapply means_quick; [compute_dec|by left]|]. split; [eapply means_quick; [compute_dec|by right]|].
  split; [constructor; [apply ex_typed; compute_dec|constructor; [apply ex_typed; compute_dec|constructor]]|].
  split; [apply ex_ready|]. split; [apply ex_picks|]. split; [apply ex_m_u1|]. split; [compute_dec|]. split; [compute_dec|].
  intros x (b & Hb & Hn). apply one_entry in Hb as [_ ->]. vm_compute in Hn. discriminate Hn.
Qed.

(** Refused are exactly the commands not marked as reading, in a read-only session. *)
Theorem C78_refused : ∀ ro ctx line cmd rest, Fields (TrimSpace line) = cmd :: rest →
  parse_line ro ctx line = Refused ↔ ro = true ∧ cmd ∈ write_cmds.
Proof. exact parse_refused. Qed.
Print Assumptions C78_refused.
(** One of them only reads: login changes neither the session nor its log, and is refused. *)
Theorem C78_login : ∀ ctx line rest, Fields (TrimSpace line) = "login" :: rest → parse_line true ctx line = Refused ∧
  ∀ w q s inp, unchanged s (login w q s inp).1.
Proof.
  intros ctx line rest H. split; [|intros w q s inp; apply leaves_login]. apply (parse_refused true ctx line "login" rest H). split; [done|].
  apply elem_of_list_In. cbn [In write_cmds]. tauto.
Qed.
Print Assumptions C78_login.
Example C78_login_example : Fields (TrimSpace "login mail") = ["login"; "mail"] ∧ parse_line true "" "login mail" = Refused ∧ parse_line true "" "pass mail" = Run (KGet "mail" "pass" (-1) true).
Proof. split; [|split]; vm_compute; reflexivity. Qed.
