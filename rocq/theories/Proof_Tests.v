(** Tactics and lemmas for the tests of the project. *)
From Verif Require Import Proof_Text2 Proof_Fuzzy.
From Verif Require Export Proof_TxLog Proof_Merge Proof_Json2.
From Coq Require Import Lia.
From stdpp Require Import options.
#[local] Open Scope nat_scope.

(** The transaction a call writes to the log. *)
Definition wtx (o : op) : option tx :=
  match o with
  | OAdd _ now u => Some (mk_tx now TxAdd u "" "")
  | OSet _ now u k v => Some (mk_tx now TxSetKey u k v)
  | ODelete _ now u => Some (mk_tx now TxDelete u "" "")
  | ODeleteKey _ now u k => Some (mk_tx now TxDeleteKey u k "")
  | _ => None
  end.

Lemma run_writes ops d l : mapM wtx ops = Some l →
  ∃ s, run d ops = Ok (mk_db (db_version d) (db_snapshot d) s (db_txpoint d)) ∧ vis s = vis (db_log d) ++ l.
Proof.
  revert d l. induction ops as [|o ops IH]; intros d l H.
  { injection H as <-. exists (db_log d). rewrite app_nil_r. by destruct d. }
  cbn [mapM mbind option_bind] in H. destruct (wtx o) as [x|] eqn:E; [|done]. cbn in H.
  destruct (mapM wtx ops) as [l'|] eqn:E'; [|done]. injection H as <-.
  destruct o; try discriminate E; injection E as <-; cbn [run step];
    match goal with |- ∃ s, run ?d' ops = _ ∧ _ => destruct (IH d' l' eq_refl) as (s & -> & Hs) end;
    exists s; (split; [done|]); rewrite Hs; cbn [db_log Model_TxLog.Add Model_TxLog.Set_ Model_TxLog.Delete Model_TxLog.DeleteKey appendLog]; rewrite slice_append_vis, <-app_assoc; done.
Qed.

Ltac maps := repeat first
  [ rewrite lookup_empty | rewrite lookup_insert | rewrite lookup_insert_ne by done
  | rewrite lookup_delete | rewrite lookup_delete_ne by done ].

Lemma loop_add s v t u r : s !! u = None → apply_loop s v (mk_tx t TxAdd u "" "" :: r) = apply_loop (<[u := ∅]> s) (S v) r.
Proof. intros H. cbn. by rewrite H. Qed.
Lemma loop_del s v t u r e : s !! u = Some e → apply_loop s v (mk_tx t TxDelete u "" "" :: r) = apply_loop (delete u s) (S v) r.
Proof. intros H. cbn. by rewrite H. Qed.
Lemma loop_set s v t u k x r e : s !! u = Some e →
  apply_loop s v (mk_tx t TxSetKey u k x :: r) = apply_loop (<[u := <[k := x]> e]> s) (S v) r.
Proof. intros H. cbn. unfold getEntry. by rewrite H. Qed.
Lemma loop_delk s v t u k r e : s !! u = Some e →
  apply_loop s v (mk_tx t TxDeleteKey u k "" :: r) = apply_loop (<[u := delete k e]> s) (S v) r.
Proof. intros H. cbn. unfold getEntry. by rewrite H. Qed.
Ltac replays := repeat first
  [ erewrite loop_add by (maps; reflexivity) | erewrite loop_set by (maps; reflexivity)
  | erewrite loop_delk by (maps; reflexivity) | erewrite loop_del by (maps; reflexivity) ]; reflexivity.
Lemma snap_mk v s l p : snap_of (mk_db v (Some s) l p) = s.
Proof. reflexivity. Qed.
Lemma update_by d s v l : vis (db_log d) = l → db_version d < length l →
  apply_loop (snap_of d) (db_version d) (drop (db_version d) l) = (s, v, Ok tt) →
  UpdateSnapshot d = (mk_db v (Some s) (db_log d) (db_txpoint d), Ok tt).
Proof. intros <- Hl H. unfold UpdateSnapshot. rewrite (proj2 (Nat.leb_gt _ _)) by lia. by rewrite H. Qed.

Ltac written H := match goal with |- context [run ?d ?ops] =>
  destruct (run_writes ops d _ eq_refl) as (? & -> & H); cbn [db_version db_snapshot db_txpoint db_log vis slice_nil db_new app] in H end.

Lemma snapshot_at d n l s v : vis (db_log d) = l → (0 ≤ n ≤ Z.of_nat (length l))%Z →
  apply_loop ∅ 0 (take (length l - Z.to_nat n) l) = (s, v, Ok tt) → SnapshotAt d n = Ok s.
Proof.
  intros <- Hn H. unfold SnapshotAt. set (L := vis (db_log d)) in *.
  replace (Z.of_nat (length L) <? n)%Z with false by (symmetry; apply Z.ltb_ge; lia).
  replace (Z.to_nat (Z.of_nat (length L) - 1 - n + 1)) with (length L - Z.to_nat n) by lia. rewrite H.
  by replace (Z.of_nat (length L) - 1 - n <? Z.of_nat (length L))%Z with true by (symmetry; apply Z.ltb_lt; lia).
Qed.
Lemma entry_at d u n l le s v : vis (db_log d) = l → filter (λ t, tx_uuid t = u) l = le →
  (0 ≤ n ≤ Z.of_nat (length le))%Z → (n < Z.of_nat (length l))%Z →
  apply_loop ∅ 0 (take (length le - Z.to_nat n) le) = (s, v, Ok tt) →
  EntrySnapshotAt d u n = match s !! u with Some e => Ok e | None => Fail (EKeyNotFound u "" "") end.
Proof.
  intros <- <- Hn Hl H. unfold EntrySnapshotAt. set (L := vis (db_log d)) in *. set (E := filter (λ t, tx_uuid t = u) L) in *.
  replace (Z.of_nat (length L) <=? n)%Z with false by (symmetry; apply Z.leb_gt; lia).
  replace (Z.of_nat (length E) <? n)%Z with false by (symmetry; apply Z.ltb_ge; lia).
  replace (Z.to_nat (Z.of_nat (length E) - 1 - n + 1)) with (length E - Z.to_nat n) by lia. rewrite H.
  by replace (Z.of_nat (length E) - 1 - n <? Z.of_nat (length E))%Z with true by (symmetry; apply Z.ltb_lt; lia).
Qed.

Lemma loop_utf8 l s v s' v' r : apply_loop s v l = (s', v', r) → snapshot_utf8 s → Forall tx_utf8 l → snapshot_utf8 s'.
Proof.
  intros H Hs HF. revert s v H Hs. induction HF as [|t l Ht HF IH]; intros s v H Hs; cbn [apply_loop] in H; [by injection H as <- _ _|].
  destruct (applyTx s t) as [s1|e|] eqn:E; [|by injection H as <- _ _|by injection H as <- _ _].
  eapply IH; [exact H|]. by eapply applyTx_utf8.
Qed.
Lemma utf8_of s : Model_GoStr.encode (runes s) = s → utf8 s.
Proof. exact (valid_utf8_runes s). Qed.

Lemma rollback_to v s l p : 0 < p → v ≤ p → p - 1 ≤ length (vis l) →
  ∃ sp, Rollback (mk_db v s l p) = Ok (mk_db v s (mk_slice (take (p - 1) (vis l)) sp) 0).
Proof.
  intros H1 H2 H3. unfold Rollback. cbn [db_txpoint db_version db_log]. rewrite (proj2 (Nat.eqb_neq _ _)) by lia.
  rewrite (proj2 (Nat.ltb_ge _ _)) by lia. cbn [db_txpoint db_version db_log db_snapshot]. unfold slice_upto.
  rewrite app_length, (proj2 (Nat.leb_le _ _)) by lia. eexists. by rewrite take_app_le by lia.
Qed.
Lemma rollback_reset v s l p : 0 < p → p < v → p - 1 ≤ length (vis l) →
  ∃ sp, Rollback (mk_db v s l p) = Ok (mk_db 0 None (mk_slice (take (p - 1) (vis l)) sp) 0).
Proof.
  intros H1 H2 H3. unfold Rollback. cbn [db_txpoint db_version db_log]. rewrite (proj2 (Nat.eqb_neq _ _)) by lia.
  rewrite (proj2 (Nat.ltb_lt _ _)) by lia. cbn [db_txpoint db_version db_log db_snapshot ResetSnapshot]. unfold slice_upto.
  rewrite app_length, (proj2 (Nat.leb_le _ _)) by lia. eexists. by rewrite take_app_le by lia.
Qed.
Lemma rollbackN_by n v s l p : 0 < n → n ≤ length (vis l) →
  ∃ sp, RollbackN n (mk_db v s l p) =
    (if length (vis l) - n <? v then mk_db 0 None (mk_slice (take (length (vis l) - n) (vis l)) sp) p
     else mk_db v s (mk_slice (take (length (vis l) - n) (vis l)) sp) p, Ok tt).
Proof.
  intros H1 H2. unfold RollbackN. cbn [db_log db_version]. rewrite (proj2 (Nat.eqb_neq _ _)) by lia. rewrite (proj2 (Nat.ltb_ge _ _)) by lia.
  eexists. destruct (_ <? v); cbn [ResetSnapshot db_log db_version db_snapshot db_txpoint]; unfold slice_upto;
    rewrite app_length, (proj2 (Nat.leb_le _ _)) by lia; by rewrite take_app_le by lia.
Qed.
