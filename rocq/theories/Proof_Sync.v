(** Proofs about syncing. *)
From Verif Require Import Spec_Sync Proof_TxLog Proof_GoStr Proof_Blobs Proof_Blobs2 Proof_Hosts Proof_Session3 Proof_Session5 Proof_Session6.
From Coq Require Import Lia.
From stdpp Require Import options.
Import Model_GoStr.
#[local] Open Scope nat_scope.

Lemma UOk_inj {A} (a b : A) r r' : UOk a r = UOk b r' → a = b ∧ r = r'.
Proof. intros H. by injection H. Qed.
Lemma ubind_ok {A B} (x : ui A) (f : A → list input → ui B) b rest :
  ubind x f = UOk b rest → ∃ a r, x = UOk a r ∧ f a r = UOk b rest.
Proof. destruct x as [a r|e r| |]; cbn [ubind]; [|done|done|done]. intros H. by exists a, r. Qed.

(** ** Pulling *)
Lemma no_changes_spec a b : b ≠ [] → ∃ r : bool, no_changes a b = Ok r ∧ (r = true ↔ alike a b).
Proof.
  intros Hb. unfold no_changes, alike. destruct (length a =? length b) eqn:E.
  2:{ exists false. apply Nat.eqb_neq in E. split; [done|]. split; [done|]. by intros [? _]. }
  apply Nat.eqb_eq in E. destruct b as [|y b] using rev_ind; [done|]. clear IHb.
  destruct a as [|x a _] using rev_ind; [rewrite app_length in E; cbn in E; lia|].
  assert (length a = length b) as E' by (rewrite !app_length in E; cbn in E; lia).
  rewrite !app_length. cbn [length]. rewrite !Nat.add_sub. unfold idx. rewrite !list_lookup_middle by done.
  rewrite !last_snoc.
  assert (∃ p q, (a ++ [x]) !! 0 = Some p ∧ (b ++ [y]) !! 0 = Some q ∧ head (a ++ [x]) = Some p ∧ head (b ++ [y]) = Some q) as (p & q & E1 & E2 & E3 & E4).
  { destruct a as [|p a], b as [|q b]; try discriminate E'; cbn; eauto 10. }
  rewrite E1, E2, E3, E4. cbn [mbind outcome_bind fmap option_fmap option_map].
  destruct (tx_time p =? tx_time q)%Z eqn:Ep.
  - apply Z.eqb_eq in Ep. exists (tx_time x =? tx_time y)%Z. split; [done|]. rewrite Z.eqb_eq. rewrite Ep.
    split; [intros ->; split; [lia|done]|]. intros (_ & _ & H). by injection H.
  - apply Z.eqb_neq in Ep. exists false. split; [done|]. split; [done|]. intros (_ & H & _). by injection H.
Qed.
Lemma alike_dec a b : alike a b ∨ ¬ alike a b.
Proof. unfold alike. destruct (decide (length a = length b ∧ tx_time <$> head a = tx_time <$> head b ∧ tx_time <$> last a = tx_time <$> last b)); tauto. Qed.

Definition fate_of (keep : bool) (op : option part) : fate :=
  match keep, op with true, Some p => Opened p | true, None => Missing | false, _ => LeftAlone end.

Lemma pull_one_is P w s i u inp host keep op rest : vis (db_log (s_db s)) ≠ [] →
  pull_one P w s i u inp = UOk (host, keep, op) rest →
  remote_is P w s i u inp host (fate_of keep op) rest ∧ (keep = false → op = None).
Proof.
  intros Hne H. unfold pull_one in H. apply ubind_ok in H as ([h got] & inp1 & E1 & H).
  destruct got as [|e|ct].
  - apply UOk_inj in H as [[= <- <- <-] <-]. cbn. split; [by eapply is_missing|done].
  - apply UOk_inj in H as [[= <- <- <-] <-]. cbn. split; [by eapply is_unreachable|done].
  - apply ubind_ok in H as (r & inp2 & E2 & H). destruct r as [[[[params user] pass] pt]|].
    2:{ apply UOk_inj in H as [[= <- <- <-] <-]. cbn. split; [by eapply is_locked|done]. }
    destruct (length pt =? 0) eqn:El.
    { apply UOk_inj in H as [[= <- <- <-] <-]. cbn. split; [|done]. eapply is_garbage; [done|done|]. left. apply Nat.eqb_eq in El. by destruct pt. }
    assert (pt ≠ []) as Hpt by (apply Nat.eqb_neq in El; by intros ->).
    destruct (NewLog pt) as [log|e|] eqn:Elog; [|apply UOk_inj in H as [[= <- <- <-] <-]; cbn; split; [eapply is_garbage; eauto|done]|done].
    destruct (no_changes_spec (vis log) _ Hne) as (b & Eb & Hb). rewrite Eb in H. cbn [of_outcome ubind] in H.
    destruct b; apply UOk_inj in H as [[= <- <- <-] <-]; cbn.
    + split; [|done]. eapply is_alike; eauto. by apply Hb.
    + split; [|done]. eapply is_opened; eauto. intros Ha. apply Hb in Ha. done.
Qed.
Lemma is_pull_one P w s i u inp host f rest : vis (db_log (s_db s)) ≠ [] →
  remote_is P w s i u inp host f rest →
  ∃ keep op, pull_one P w s i u inp = UOk (host, keep, op) rest ∧ f = fate_of keep op.
Proof.
  intros Hne H. unfold pull_one. destruct H as [host rest E|host e rest E|host ct inp1 rest E E2|host ct inp1 params user pass pt rest E E2 Hg|host ct inp1 params user pass pt log rest E E2 Hpt El Ha|host ct inp1 params user pass pt log rest E E2 Hpt El Ha];
    rewrite E; cbn [ubind]; try (rewrite E2; cbn [ubind]).
  - by exists true, None.
  - by exists false, None.
  - by exists false, None.
  - exists false, None. destruct (length pt =? 0) eqn:El; [done|]. destruct Hg as [->|[e ->]]; done.
  - exists false, None. replace (length pt =? 0) with false by (symmetry; apply Nat.eqb_neq; by destruct pt).
    rewrite El. destruct (no_changes_spec (vis log) _ Hne) as (b & -> & Hb). cbn. by rewrite (proj2 Hb Ha).
  - exists true, (Some (mk_part user pass params (vis log))). replace (length pt =? 0) with false by (symmetry; apply Nat.eqb_neq; by destruct pt).
    rewrite El. destruct (no_changes_spec (vis log) _ Hne) as (b & -> & Hb). cbn. destruct b; [|done]. exfalso. apply Ha, Hb. done.
Qed.
Lemma pull_loop_pulls P w s us : vis (db_log (s_db s)) ≠ [] → ∀ i inp hosts kept ps rest,
  pull_loop P w s i us inp = UOk (hosts, kept, ps) rest →
  ∃ rs, pulls P w s i us inp rs rest ∧ hosts = new_hosts us rs ∧ kept = receivers us rs ∧ ps = opened_parts rs.
Proof.
  intros Hne. induction us as [|u us IH]; intros i inp hosts kept ps rest H; cbn [pull_loop] in H.
  - apply UOk_inj in H as [[= <- <- <-] <-]. exists []. split; [constructor|done].
  - apply ubind_ok in H as ([[h k] op] & inp1 & E1 & H). apply ubind_ok in H as ([[hs ks] qs] & inp2 & E2 & H).
    apply UOk_inj in H as [[= <- <- <-] <-]. destruct (IH _ _ _ _ _ _ E2) as (rs & Hp & -> & -> & ->).
    destruct (pull_one_is _ _ _ _ _ _ _ _ _ _ Hne E1) as [Hr Hk].
    exists ((h, fate_of k op) :: rs). split; [by econstructor|]. destruct k, op as [p|]; cbn; try done. by specialize (Hk eq_refl).
Qed.
Lemma pulls_pull_loop P w s us : vis (db_log (s_db s)) ≠ [] → ∀ i inp rs rest,
  pulls P w s i us inp rs rest → pull_loop P w s i us inp = UOk (new_hosts us rs, receivers us rs, opened_parts rs) rest.
Proof.
  intros Hne. induction us as [|u us IH]; intros i inp rs rest H; inversion H; subst; cbn [pull_loop]; [done|].
  match goal with H1 : remote_is _ _ _ _ _ _ _ _ _, H2 : pulls _ _ _ _ _ _ _ _ |- _ => rename H1 into Hr; rename H2 into Hp end.
  destruct (is_pull_one _ _ _ _ _ _ _ _ _ Hne Hr) as (k & op & E & ->). rewrite E. cbn [ubind].
  rewrite (IH _ _ _ _ Hp). cbn [ubind].
  destruct (pull_one_is _ _ _ _ _ _ _ _ _ _ Hne E) as [_ Hk].
  destruct k, op as [p|]; cbn; try done. by specialize (Hk eq_refl).
Qed.
