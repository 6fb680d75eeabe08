(** C92: set takes links and nothing else for the url of an entry, and openurl opens that link. *)
From Verif Require Import Spec_Links Spec_Repl Proof_GoStr Proof_Pkcs7 Proof_TxLog Proof_Blobs Proof_Url Proof_SessionEx Proof_Repl2 Proof_Repl3 Proof_Repl6 Proof_Links Proof_Links2.
From Coq Require Import Lia.
From stdpp Require Import options.
Import Model_GoStr.
#[local] Open Scope Z_scope.

(** ** What is accepted *)

(** Exactly the links: a scheme, a colon, nothing or a path from the root or a host and a path,
    then perhaps a query and a fragment. *)
Theorem C92_accepted : ∀ v, url_verdict v = GoodUrl ↔ link v.
Proof. exact link_ok. Qed.
Print Assumptions C92_accepted.

(** So the usual ones are *)
Theorem C92_usual : ∀ scheme host port path, scheme_text scheme → host ≠ "" → each (λ c, letter c ∨ digit c ∨ one_of "-." c) host → port_part port →
  (path = "" ∨ ∃ r, path = String (Zbyte 47) r) → each (λ c, 32 ≤ byteZ c ∧ byteZ c ≠ 127 ∧ c ≠ Zbyte 35 ∧ c ≠ Zbyte 37 ∧ c ≠ Zbyte 63) path →
  url_verdict (scheme +:+ "://" +:+ host +:+ port +:+ path) = GoodUrl.
Proof.
  intros scheme host port path Hs Hne Hh Hp Hr Hb. apply link_ok. exists scheme, ("//" +:+ (host +:+ port) +:+ path), "", "". 
  assert (∀ c, (letter c ∨ digit c ∨ one_of "-." c) ∨ c = Zbyte 58 → any_host c ∧ (32 ≤ byteZ c ∧ byteZ c ≠ 127) ∧ c ≠ Zbyte 35 ∧ c ≠ Zbyte 37 ∧ c ≠ Zbyte 63 ∧ c ≠ Zbyte 47 ∧ c ≠ Zbyte 64 ∧ c ≠ Zbyte 91) as HB.
  { intros c Hc.
    assert (negb ((inr 97 122 (byteZ c) || inr 65 90 (byteZ c)) || (inr 48 57 (byteZ c) || (among (byteZ c) "-." || (byteZ c =? 58)))) ||
      (any_host_b c && (32 <=? byteZ c) && negb (byteZ c =? 127) && negb (byteZ c =? 35) && negb (byteZ c =? 37) && negb (byteZ c =? 63) && negb (byteZ c =? 47) && negb (byteZ c =? 64) && negb (byteZ c =? 91)) = true) as T by (clear; bytes_of c; by vm_compute).
    assert ((inr 97 122 (byteZ c) || inr 65 90 (byteZ c)) || (inr 48 57 (byteZ c) || (among (byteZ c) "-." || (byteZ c =? 58))) = true) as T'.
    { apply orb_true_iff. rewrite !(orb_true_iff (inr 48 57 _)), (orb_true_iff (among _ _)). rewrite letter_test, digit_test, among_one_of, Z.eqb_eq. destruct Hc as [[H|[H|H]]| ->]; auto. }
    rewrite T' in T. cbn [negb orb] in T. rewrite !andb_true_iff, !negb_true_iff, !Z.eqb_neq, Z.leb_le, any_host_b_ok in T. destruct T as [[[[[[[[T1 T2] T3] T4] T5] T6] T7] T8] T9].
    split; [done|]. split; [done|]. repeat split; intros ->; match goal with H : byteZ (Zbyte ?z) ≠ _ |- _ => apply H; by rewrite byteZ_Zbyte by lia end. }
  assert (each (λ c, (letter c ∨ digit c ∨ one_of "-." c) ∨ c = Zbyte 58) (host +:+ port)) as Hall.
  { apply each_app. split; [eapply each_mono; [|exact Hh]; by left|]. destruct Hp as [->|(d & -> & Hd)]; [done|]. split; [by right|]. eapply each_mono; [|exact Hd]. intros c H. left. right. by left. }
  assert (∀ c s, each (λ d, d ≠ c) s → lacks c s) as EL. { intros c s. induction s as [|x s IH]; [done|]. cbn. intros [H1 H2]. split; [done|auto]. }
  assert (lacks (Zbyte 58) host) as Lc.
  { apply EL. eapply each_mono; [|exact Hh]. intros c H ->. destruct H as [H|[H|H]]; [unfold letter in H; rewrite byteZ_Zbyte in H by lia; lia|unfold digit in H; rewrite byteZ_Zbyte in H by lia; lia|].
    revert H. apply (bool_decide_eq_false_1 (Zbyte 58 ∈ str_bytes "-.")). reflexivity. }
  split; [rewrite !sapp_nil; cbn [String.append]; by rewrite sapp_assoc|]. split; [done|].
  split; [|split; [|split; [|split; [|split; [by left|by left]]]]].
  - rewrite !lacks_app. split; [by split; [|split]|]. rewrite <-lacks_app. split; [apply EL; eapply each_mono; [|exact Hall]; intros c Hc; by apply HB|apply EL; eapply each_mono; [|exact Hb]; cbn; tauto].
  - rewrite !lacks_app. split; [by split; [|split]|]. rewrite <-lacks_app. split; [apply EL; eapply each_mono; [|exact Hall]; intros c Hc; by apply HB|apply EL; eapply each_mono; [|exact Hb]; cbn; tauto].
  - apply control_app. split; [by repeat split; vm_compute|]. apply control_app. split; [eapply each_mono; [|exact Hall]; intros c Hc; by apply HB|eapply each_mono; [|exact Hb]; cbn; tauto].
  - right. right. exists (host +:+ port), path. split; [done|]. split; [apply EL; eapply each_mono; [|exact Hall]; intros c Hc; by apply HB|]. split; [done|]. split.
    + left. split; [apply EL; eapply each_mono; [|exact Hall]; intros c Hc; by apply HB|]. apply host_name; [|by left| |done].
      * intros [r ->]. destruct Hh as [Hh _]. destruct (HB (Zbyte 91)) as (_ & _ & _ & _ & _ & _ & _ & H); [by left|]. done.
      * clear -Hh HB. induction host as [|c h IH]; [constructor|]. destruct Hh as [H1 H2]. destruct (HB c) as (? & _ & _ & ? & _); [by left|]. constructor; [done|done|by apply IH].
    + clear -Hb. induction path as [|c p IH]; [constructor|]. destruct Hb as [H1 H2]. constructor; [tauto|done|by apply IH].
Qed.
Print Assumptions C92_usual.

(** A text without a colon is none. *)
Theorem C92_scheme_needed : ∀ v, lacks (Zbyte 58) v → url_verdict v ≠ GoodUrl.
Proof.
  intros v H E. apply link_ok in E as (scheme & rest & query & frag & -> & _). apply lacks_app in H as [_ H]. change (":" +:+ rest +:+ query +:+ frag) with (String (Zbyte 58) (rest +:+ query +:+ frag)) in H. by destruct H.
Qed.
Print Assumptions C92_scheme_needed.

(** ** set and openurl *)

Theorem C92_set : ∀ w s m q v u b inp, ready w s m → picks (w_lower w) m q u → m !! u = Some b →
  ∃ s', (link v ∧ set_cmd (with_links w) q "url" v s inp = (s', UOk [Report "url" v] inp) ∧
           became s s' (<[u := <["url" := v]> (stamped (e_now (w_env w 1) 0) b)]> m)) ∨
        (¬ link v ∧ set_cmd (with_links w) q "url" v s inp = (s', UOk [Note] inp) ∧ unchanged s s').
Proof. exact set_link. Qed.
Print Assumptions C92_set.

(** openurl opens the link of the entry chosen, or nothing; the store stays as it is. *)
Theorem C92_open : ∀ w s m q u b inp, ready w s m → picks (w_lower w) m q u → m !! u = Some b →
  ∃ s', openurl w q s inp = (s', UOk (match b !! "url" with
      | Some v => if decide (v = "") then [Note] else match w_url w v with NotUrl => [Note] | _ => [Opened v] end
      | None => [Note] end) inp) ∧ unchanged s s'.
Proof. exact openurl_shows. Qed.
Print Assumptions C92_open.
Theorem C92_open_none : ∀ w s m q inp, ready w s m → (∀ u, ¬ picks (w_lower w) m q u) →
  ∃ s', openurl w q s inp = (s', UOk [Note] inp) ∧ unchanged s s'.
Proof. exact openurl_none. Qed.
Print Assumptions C92_open_none.

(** A link that was set is what is opened: the browser gets it as its only argument, and it does
    not look like an option. *)
Theorem C92_set_open : ∀ w w' s m q v u b inp inp' program found, ready w s m → picks (w_lower w) m q u → m !! u = Some b → link v →
  (∀ i, fair (w_env w' i)) → fair_results (r_ord (w_rand w')) → w_lower w' = w_lower w → found program = true →
  ∃ s1 s2, set_cmd (with_links w) q "url" v s inp = (s1, UOk [Report "url" v] inp) ∧ openurl (with_links w') q s1 inp' = (s2, UOk [Opened v] inp') ∧
    OpenURL program found v = Ok (program, [v]) ∧ ¬ (∃ r, v = String (Zbyte 45) r).
Proof.
  intros w w' s m q v u b inp inp' program found Hr Hp Hb Hl Hf Ho Hlow Hfo. destruct (set_open w w' s m q v u b inp inp' Hr Hp Hb Hl Hf Ho Hlow) as (s1 & s2 & E1 & E2).
  exists s1, s2. split; [exact E1|]. split; [exact E2|]. split; [unfold OpenURL, start; by rewrite Hfo|by apply link_nonempty].
Qed.
Print Assumptions C92_set_open.

(** ** What does not hold *)

(** A link need not lead anywhere. *)
Theorem C92_nowhere_refuted : url_verdict "https:" = GoodUrl ∧ url_verdict "https://" = GoodUrl ∧ url_verdict "https:///page" = GoodUrl ∧ url_verdict "https:/example.org" = GoodUrl.
Proof. repeat split. Qed.
Print Assumptions C92_nowhere_refuted.
(** Schemes that have no slash are refused. *)
Theorem C92_mail_refuted : url_verdict "mailto:me@example.org" = NoScheme ∧ url_verdict "about:blank" = NoScheme.
Proof. split; reflexivity. Qed.
Print Assumptions C92_mail_refuted.
(** edit stores what set refuses, and openurl passes it on: the browser takes it for an option. *)
Theorem C92_option_refuted : ∀ w w' s m q u b inp inp' program found, ready w s m → picks (w_lower w) m q u → m !! u = Some b →
  (∀ old, w_editor w old = Exited 0 (Some "--help")) →
  (∀ i, fair (w_env w' i)) → fair_results (r_ord (w_rand w')) → w_lower w' = w_lower w → found program = true →
  ¬ link "--help" ∧ ∃ s1 s2, edit (with_links w) q "url" s inp = (s1, UOk [Note] inp) ∧ openurl (with_links w') q s1 inp' = (s2, UOk [Opened "--help"] inp') ∧
    OpenURL program found "--help" = Ok (program, ["--help"]).
Proof.
  intros w w' s m q u b inp inp' program found Hr Hp Hb Hed Hf Ho Hlow Hfo.
  split; [intros H%link_nonempty; destruct H as [_ H]; apply H; by eexists|].
  destruct (edit_saves (with_links w) s m q "url" u b "--help" inp Hr Hp Hb (Hed _) ltac:(done) url_open) as (s1 & E & B).
  set (b' := <["url" := "--help"]> (stamped (e_now (w_env (with_links w) 1) 0) b)) in *.
  assert (b' !! "name" = b !! "name") as Hn. { unfold b', stamped. by rewrite !lookup_insert_ne. }
  destruct (openurl_shows (with_links w') s1 (<[u := b']> m) q u b' inp') as (s2 & E2 & _).
  - apply links_ready. eapply ready_kept; [exact Hr|exact Hb|exact Hn|exact (proj1 B)|done|done|done].
  - cbn [w_lower with_links]. rewrite Hlow. by eapply picks_kept.
  - apply lookup_insert.
  - exists s1, s2. split; [exact E|]. split; [|unfold OpenURL, start; by rewrite Hfo]. rewrite E2. assert (b' !! "url" = Some "--help") as -> by (unfold b'; apply lookup_insert). reflexivity.
Qed.
Print Assumptions C92_option_refuted.

Example C92_example : scheme_text "https" ∧ url_verdict "https://example.org:8080/a%20b?x=1#top" = GoodUrl ∧ url_verdict "http://[fe80::1%25en0]/" = GoodUrl ∧
  url_verdict "example.org" = NoScheme ∧ url_verdict "https://exa mple.org" = NotUrl ∧ url_verdict "https://a/%zz" = NotUrl ∧ url_verdict "https://me:pw@h:port/" = NotUrl ∧
  ready ex_world se_single se_m ∧ OpenURL "xdg-open" (λ _, true) "https://a" = Ok ("xdg-open", ["https://a"]).
Proof.
  split; [|split; [reflexivity|split; [reflexivity|split; [reflexivity|split; [reflexivity|split; [reflexivity|split; [reflexivity|split; [apply ex_ready|reflexivity]]]]]]]].
  eexists _, _. split; [reflexivity|]. unfold letter. cbn [each]. split; [right; vm_compute; split; discriminate|]. repeat split; left; unfold letter; right; vm_compute; split; discriminate.
Qed.
