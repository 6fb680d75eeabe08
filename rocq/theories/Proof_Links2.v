(** Proofs about set url and openurl. *)
From Verif Require Import Spec_Links Spec_Repl Proof_GoStr Proof_Pkcs7 Proof_TxLog Proof_Blobs Proof_Url Proof_Links Proof_Session3 Proof_Repl2 Proof_Repl3.
From Coq Require Import Lia.
From stdpp Require Import options.
Import Model_GoStr.
#[local] Open Scope nat_scope.

Lemma links_ready w s m : ready w s m ↔ ready (with_links w) s m. Proof. done. Qed.
Lemma openurl_shows w s m q u b inp : ready w s m → picks (w_lower w) m q u → m !! u = Some b →
  ∃ s', openurl w q s inp = (s', UOk (match b !! "url" with
      | Some v => if decide (v = "") then [Note] else match w_url w v with NotUrl => [Note] | _ => [Opened v] end
      | None => [Note] end) inp) ∧ unchanged s s'.
Proof.
  intros Hr Hp Hb. destruct (found_entry w s m q u b inp Hr Hp Hb) as (s1 & s2 & E1 & Eu & E2 & U & R).
  assert (is_Some (b !! "name")) as [n Hn].
  { destruct (picks_entry _ _ _ _ Hp) as (b' & n & Hb' & Hn). exists n. congruence. }
  exists s2. split; [|done]. unfold openurl. rewrite E1. rewrite Eu. rewrite (C_ok _ _ _ _ s2 b inp) by exact E2.
  assert (Get b KeyURL = Ok (default "" (b !! "url"))) as G by reflexivity. rewrite G.
  assert (Name b = Ok n) as N by (unfold Name; change KeyName with "name"; by rewrite Hn).
  destruct (b !! "url") as [v|]; cbn [default].
  - destruct (decide (v = "")) as [->|Hv]; unfold try, mbind, C_bind; cbn; [by rewrite N|].
    destruct (String.length v) eqn:L; [by destruct v|]. cbn. by destruct (w_url w v).
  - unfold try, mbind, C_bind; cbn. by rewrite N.
Qed.
Lemma openurl_none w s m q inp : ready w s m → (∀ u, ¬ picks (w_lower w) m q u) →
  ∃ s', openurl w q s inp = (s', UOk [Note] inp) ∧ unchanged s s'.
Proof. intros Hr Hp. destruct (findq_none w s m q inp Hr Hp) as (s1 & E1 & U1 & R1). exists s1. split; [|done]. unfold openurl. by rewrite E1. Qed.

Lemma called_kept m u b b' x n : m !! u = Some b → b' !! "name" = b !! "name" → called (<[u := b']> m) x n ↔ called m x n.
Proof.
  intros Hb Hn. unfold called. destruct (decide (x = u)) as [->|Hx].
  - rewrite lookup_insert, Hb. split; intros (e & E & H); injection E as <-; [exists b; by rewrite <-Hn|exists b'; by rewrite Hn].
  - by rewrite lookup_insert_ne.
Qed.
Lemma ready_kept w w' s s' m u b b' : ready w s m → m !! u = Some b → b' !! "name" = b !! "name" → holds (s_db s') (<[u := b']> m) →
  (∀ i, fair (w_env w' i)) → fair_results (r_ord (w_rand w')) → w_lower w' = w_lower w → ready w' s' (<[u := b']> m).
Proof.
  intros (_ & [Ha Hu] & Hpl & Hne & _) Hb Hn Hh Hf Ho Hlow. split; [done|]. split; [split|split; [|split; [|done]]].
  - intros x e. destruct (decide (x = u)) as [->|Hx]; [rewrite lookup_insert; intros [= <-]; rewrite Hn; by eapply Ha|rewrite lookup_insert_ne by done; apply Ha].
  - intros u1 u2 n H1 H2. rewrite (called_kept _ _ _ _ _ _ Hb Hn) in H1. rewrite (called_kept _ _ _ _ _ _ Hb Hn) in H2. by eapply Hu.
  - intros x n H. rewrite (called_kept _ _ _ _ _ _ Hb Hn) in H. rewrite Hlow. by eapply Hpl.
  - rewrite lookup_insert_ne; [done|]. intros ->. congruence.
Qed.
Lemma picks_kept lower m u b b' q x : m !! u = Some b → b' !! "name" = b !! "name" → picks lower m q x → picks lower (<[u := b']> m) q x.
Proof.
  intros Hb Hn [H|(n & H1 & H2 & H3)]; [left; by rewrite (called_kept _ _ _ _ _ _ Hb Hn)|right]. exists n. split; [by rewrite (called_kept _ _ _ _ _ _ Hb Hn)|]. split; [done|].
  intros u' n' H. rewrite (called_kept _ _ _ _ _ _ Hb Hn) in H. by apply H3.
Qed.
Lemma link_nonempty v : link v → v ≠ "" ∧ ¬ (∃ r, v = String (Zbyte 45) r).
Proof.
  intros (scheme & rest & query & frag & -> & (c & r & -> & Hc & _) & _). split; [done|]. intros [r' E]. cbn [String.append] in E. injection E as -> _. unfold letter in Hc. rewrite byteZ_Zbyte in Hc by lia. lia.
Qed.
Lemma set_link w s m q v u b inp : ready w s m → picks (w_lower w) m q u → m !! u = Some b →
  ∃ s', (link v ∧ set_cmd (with_links w) q "url" v s inp = (s', UOk [Report "url" v] inp) ∧
           became s s' (<[u := <["url" := v]> (stamped (e_now (w_env w 1) 0) b)]> m)) ∨
        (¬ link v ∧ set_cmd (with_links w) q "url" v s inp = (s', UOk [Note] inp) ∧ unchanged s s').
Proof.
  intros Hr Hp Hb. destruct (url_verdict v) eqn:V.
  1,2: destruct (set_bad_url (with_links w) s m q v u inp Hr Hp) as (s' & E & U); [cbn [w_url with_links]; by rewrite V|]; exists s'; right; (split; [intros H; apply link_ok in H; congruence|exact (conj E U)]).
  apply link_ok in V. destruct (set_stores (with_links w) s m q "url" v u b inp Hr Hp Hb url_open) as (s' & E & U); [by apply link_nonempty|intros _; by apply link_ok|].
  exists s'. left. exact (conj V (conj E U)).
Qed.
Lemma set_open w w' s m q v u b inp inp' : ready w s m → picks (w_lower w) m q u → m !! u = Some b → link v →
  (∀ i, fair (w_env w' i)) → fair_results (r_ord (w_rand w')) → w_lower w' = w_lower w →
  ∃ s1 s2, set_cmd (with_links w) q "url" v s inp = (s1, UOk [Report "url" v] inp) ∧ openurl (with_links w') q s1 inp' = (s2, UOk [Opened v] inp').
Proof.
  intros Hr Hp Hb Hl Hf Ho Hlow. destruct (set_link w s m q v u b inp Hr Hp Hb) as (s1 & [(_ & E & B)|(N & _)]); [|done].
  set (b' := <["url" := v]> (stamped (e_now (w_env w 1) 0) b)) in *.
  assert (b' !! "name" = b !! "name") as Hn. { unfold b', stamped. by rewrite !lookup_insert_ne. }
  destruct (openurl_shows (with_links w') s1 (<[u := b']> m) q u b' inp') as (s2 & E2 & _).
  - apply links_ready. eapply ready_kept; [exact Hr|exact Hb|exact Hn|exact (proj1 B)|done|done|done].
  - cbn [w_lower with_links]. rewrite Hlow. by eapply picks_kept.
  - apply lookup_insert.
  - exists s1, s2. split; [exact E|]. rewrite E2. assert (b' !! "url" = Some v) as -> by (unfold b'; apply lookup_insert).
    destruct (link_nonempty v Hl) as [Hv _]. rewrite decide_False by done. cbn [w_url with_links]. by rewrite (proj2 (link_ok v) Hl).
Qed.
