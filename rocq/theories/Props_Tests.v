(** C93: the project's own tests (the files ending in _test.go), as theorems
    about the model for all uuids, times, random bytes, salts and so on that
    the tests leave open. *)
From Verif Require Import Proof_Tests Spec_PassGen Spec_Fuzzy Proof_Fuzzy Proof_Pkcs7 Proof_PassGen Proof_Crypt7 Model_Fold Proof_Fold.
From Coq Require Import Lia.
From stdpp Require Import options.
#[local] Open Scope nat_scope.

(** ** txlogs/txlogs_test.go *)

(** txlogs_test.go:13-54, TestBasic *)
Theorem C93_basic : ∀ u (t : nat → Z) (g : nat → nat), ∃ d d',
  run db_new [OAdd (g 0) (t 0) u; OSet (g 1) (t 1) u "test1" "value"; OSet (g 2) (t 2) u "test2" "value";
    OSet (g 3) (t 3) u "test3" "value"; OSet (g 4) (t 4) u "test1" "notvalue"; ODeleteKey (g 5) (t 5) u "test2"] = Ok d ∧
  UpdateSnapshot d = (d', Ok tt) ∧
  (∃ e, snap_of d' !! u = Some e ∧ e !! "test1" = Some "notvalue" ∧ e !! "test2" = None ∧ e !! "test3" = Some "value") ∧
  ∃ d'' d''', run d' [ODelete (g 6) (t 6) u] = Ok d'' ∧ UpdateSnapshot d'' = (d''', Ok tt) ∧ snap_of d''' !! u = None.
Proof.
  intros u t g. written H. eexists _, _. split; [reflexivity|].
  split; [eapply update_by; [exact H|cbn; lia|change (snap_of _) with (∅ : snapshot); cbn [drop db_version db_new]; replays]|].
  split; [eexists; rewrite snap_mk; split; [maps; reflexivity|]; split_and!; maps; reflexivity|].
  written H'. rewrite H in H'. eexists _, _. split; [reflexivity|].
  split; [eapply update_by; [exact H'|cbn; lia|cbn [db_version db_snapshot db_log db_txpoint]; rewrite snap_mk; cbn [app drop db_version]; replays]|].
  rewrite snap_mk. maps. reflexivity.
Qed.
Print Assumptions C93_basic.

(** txlogs_test.go:56-154, TestHistory *)
Theorem C93_history : ∀ u u2 (t : nat → Z) (g : nat → nat), u ≠ u2 → ∃ d d',
  run db_new [OAdd (g 0) (t 0) u; OAdd (g 1) (t 1) u2;
    OSet (g 2) (t 2) u "test1" "value"; OSet (g 3) (t 3) u2 "test1" "value";
    OSet (g 4) (t 4) u "test2" "value"; OSet (g 5) (t 5) u2 "test2" "value";
    OSet (g 6) (t 6) u "test3" "notvalue"; OSet (g 7) (t 7) u2 "test3" "notvalue"] = Ok d ∧
  UpdateSnapshot d = (d', Ok tt) ∧
  SnapshotAt d' 0 = Ok (snap_of d') ∧
  (∃ s e e2, SnapshotAt d' 1 = Ok s ∧ s !! u = Some e ∧ e !! "test3" = Some "notvalue" ∧ s !! u2 = Some e2 ∧ e2 !! "test3" = None) ∧
  (∃ s, SnapshotAt d' 8 = Ok s ∧ s !! u = None) ∧
  (∃ e, EntrySnapshotAt d' u 1 = Ok e ∧ e !! "test2" = Some "value" ∧ e !! "test3" = None) ∧
  EntrySnapshotAt d' u 4 = Fail (EKeyNotFound u "" "") ∧
  ∃ e, EntrySnapshotAt d' u 0 = Ok e ∧ snap_of d' !! u = Some e.
Proof.
  intros u u2 t g Hu. written H. eexists _, _. split; [reflexivity|].
  split; [eapply update_by; [exact H|cbn; lia|change (snap_of _) with (∅ : snapshot); cbn [drop db_version db_new]; replays]|].
  rewrite snap_mk. cbn [db_log db_txpoint].
  match type of H with vis _ = ?l => assert (filter (λ t, tx_uuid t = u) l =
    [mk_tx (t 0) TxAdd u "" ""; mk_tx (t 2) TxSetKey u "test1" "value"; mk_tx (t 4) TxSetKey u "test2" "value"; mk_tx (t 6) TxSetKey u "test3" "notvalue"]) as HF end.
  { repeat first [rewrite filter_cons_True by reflexivity|rewrite filter_cons_False by (cbn; done)]. reflexivity. }
  split; [eapply snapshot_at; [exact H|cbn; lia|change (Z.to_nat 0) with 0; cbn [length Nat.sub take]; replays]|].
  split. { eexists _, _, _. split; [eapply snapshot_at; [exact H|cbn; lia|]|].
    { change (Z.to_nat 1) with 1. cbn [length Nat.sub take]. replays. }
    split; [maps; reflexivity|]. split; [maps; reflexivity|]. split; [maps; reflexivity|]. maps. reflexivity. }
  split. { eexists. split; [eapply snapshot_at; [exact H|cbn; lia|]|]. { change (Z.to_nat 8) with 8. cbn [length Nat.sub take]. replays. } reflexivity. }
  split. { eexists. split; [erewrite entry_at; [|exact H|exact HF|cbn; lia|cbn; lia|]|].
    2:{ change (Z.to_nat 1) with 1. cbn [length Nat.sub take]. replays. }
    { maps. reflexivity. } split; maps; reflexivity. }
  split. { erewrite entry_at; [|exact H|exact HF|cbn; lia|cbn; lia|].
    2:{ change (Z.to_nat 4) with 4. cbn [length Nat.sub take]. replays. } reflexivity. }
  eexists. split; [erewrite entry_at; [|exact H|exact HF|cbn; lia|cbn; lia|]|].
  2:{ change (Z.to_nat 0) with 0. cbn [length Nat.sub take]. replays. } { maps. reflexivity. } maps. reflexivity.
Qed.
Print Assumptions C93_history.

(** txlogs_test.go:156-187, TestMarshal *)
Theorem C93_marshal : ∀ u (t : nat → Z) (g : nat → nat), utf8 u → (∀ n, in_int64 (t n)) → ∃ d d' b d'',
  run db_new [OAdd (g 0) (t 0) u; OSet (g 1) (t 1) u "test1" "value"; OSet (g 2) (t 2) u "test2" "value";
    OSet (g 3) (t 3) u "test1" "notvalue"; ODeleteKey (g 4) (t 4) u "test2"] = Ok d ∧
  UpdateSnapshot d = (d', Ok tt) ∧ Save d' = Ok b ∧ New b = Ok (Some d'') ∧
  ∃ e, snap_of d'' !! u = Some e ∧ e !! "test1" = Some "notvalue" ∧ e !! "test2" = None.
Proof.
  intros u t g Hu Ht. written H.
  match goal with |- ∃ d d' b d'', Ok ?x = _ ∧ _ => set (d0 := x) end.
  assert (Forall tx_utf8 (vis (db_log d0))) as HU.
  { change (db_log d0) with x. rewrite H. repeat constructor; cbn [tx_uuid tx_kind tx_key tx_value]; first [exact Hu|apply utf8_of; vm_compute; reflexivity]. }
  assert (db_fits d0) as HFits.
  { split; [done|]. change (db_log d0) with x. rewrite H. repeat constructor; cbn [tx_time]; apply Ht. }
  assert (∃ s e, UpdateSnapshot d0 = (mk_db 5 (Some s) x 0, Ok tt) ∧ snapshot_utf8 s ∧
    s !! u = Some e ∧ e !! "test1" = Some "notvalue" ∧ e !! "test2" = None) as (s & e & E & Hs & He).
  { eexists _, _. split; [eapply (update_by d0); [exact H|cbn; lia|change (snap_of _) with (∅ : snapshot); cbn [drop db_version db_new d0]; replays]|].
    split; [|split; [maps; reflexivity|split; maps; reflexivity]].
    eapply (loop_utf8 (vis x) ∅ 0); [|intros ? ? ?%lookup_empty_Some; done|exact HU]. rewrite H. replays. }
  set (d1 := mk_db 5 (Some s) x 0) in *.
  assert (Save d1 = Ok (ltac:(let r := eval cbv beta in (match Save d1 with Ok b => b | _ => [] end) in exact r))) as HS by reflexivity.
  eexists d0, d1, _, (loaded d1). split; [reflexivity|]. split; [exact E|]. split; [exact HS|].
  split; [apply New_Save; [|exact HS]|].
  { split; [cbn; lia|apply HFits]. }
  exists e. rewrite (proj1 (loaded_same d1 (conj Hs HU))). exact He.
Qed.
Print Assumptions C93_marshal.

(** txlogs_test.go:189-457, TestMerge *)
Definition adds (l : list (Z * string)) : list tx := map (λ p, mk_tx p.1 TxAdd p.2 "" "") l.
Theorem C93_merge_no_diff : TxMerge (adds [(1, "1"); (2, "2")]%Z) (adds [(1, "1"); (2, "2")]%Z) [] = Ok (Merged (adds [(1, "1"); (2, "2")]%Z)).
Proof. vm_compute. reflexivity. Qed.
Print Assumptions C93_merge_no_diff.
Theorem C93_merge_append :
  TxMerge (adds [(1, "1"); (2, "2"); (3, "3")]%Z) (adds [(1, "1"); (2, "2")]%Z) [] = Ok (Merged (adds [(1, "1"); (2, "2"); (3, "3")]%Z)).
Proof. vm_compute. reflexivity. Qed.
Print Assumptions C93_merge_append.
Theorem C93_merge_compare :
  TxMerge (adds [(1, "1"); (2, "2"); (3, "3"); (5, "5")]%Z) (adds [(1, "1"); (2, "2"); (4, "4"); (6, "6")]%Z) [] =
  Ok (Merged (adds [(1, "1"); (2, "2"); (3, "3"); (4, "4"); (5, "5"); (6, "6")]%Z)).
Proof. vm_compute. reflexivity. Qed.
Print Assumptions C93_merge_compare.

Theorem C93_merge_conflict :
  let a := [mk_tx 0 TxAdd "0" "" ""; mk_tx 2 TxAdd "1" "" ""; mk_tx 4 TxSetKey "1" "a" "b"] in
  let b := [mk_tx 0 TxAdd "0" "" ""; mk_tx 3 TxDelete "1" "" ""] in
  let c := mk_conflict ConflictKindDeleteSet (mk_tx 3 TxDelete "1" "" "") (mk_tx 4 TxSetKey "1" "a" "b") resolveNone in
  TxMerge a b [] = Ok (Conflicts [c]) ∧
  TxMerge a b [DiscardInitial c] = Ok (Merged a) ∧
  TxMerge a b [DiscardConflict c] = Ok (Merged [mk_tx 0 TxAdd "0" "" ""; mk_tx 2 TxAdd "1" "" ""; mk_tx 3 TxDelete "1" "" ""]).
Proof. cbv zeta. split; [|split]; vm_compute; reflexivity. Qed.
Print Assumptions C93_merge_conflict.

Theorem C93_merge_conflicts :
  let a := [mk_tx 1 TxAdd "1" "" ""; mk_tx 2 TxAdd "2" "" ""; mk_tx 5 TxSetKey "1" "a" "b"; mk_tx 6 TxSetKey "1" "a" "b";
            mk_tx 6 TxSetKey "2" "a" "b"; mk_tx 7 TxSetKey "2" "a" "b"] in
  let b := [mk_tx 1 TxAdd "1" "" ""; mk_tx 2 TxAdd "2" "" ""; mk_tx 3 TxDelete "1" "" ""; mk_tx 4 TxDelete "2" "" ""] in
  let c1 := mk_conflict ConflictKindDeleteSet (mk_tx 3 TxDelete "1" "" "") (mk_tx 5 TxSetKey "1" "a" "b") resolveNone in
  let c2 := mk_conflict ConflictKindDeleteSet (mk_tx 4 TxDelete "2" "" "") (mk_tx 6 TxSetKey "2" "a" "b") resolveNone in
  TxMerge a b [] = Ok (Conflicts [c1; c2]) ∧
  TxMerge a b [DiscardInitial c1; DiscardInitial c2] = Ok (Merged a) ∧
  TxMerge a b [DiscardConflict c1; DiscardConflict c2] = Ok (Merged b).
Proof. cbv zeta. split; [|split]; vm_compute; reflexivity. Qed.
Print Assumptions C93_merge_conflicts.

Theorem C93_merge_root :
  let c := mk_conflict ConflictKindRoot (mk_tx 1 TxAdd "1" "" "") (mk_tx 2 TxAdd "2" "" "") resolveNone in
  TxMerge (adds [(1, "1")]%Z) (adds [(2, "2")]%Z) [] = Ok (Conflicts [c]) ∧
  TxMerge (adds [(1, "1")]%Z) (adds [(2, "2")]%Z) [Force c] = Ok (Merged (adds [(1, "1"); (2, "2")]%Z)).
Proof. cbv zeta. split; vm_compute; reflexivity. Qed.
Print Assumptions C93_merge_root.

(** txlogs_test.go:459-496, TestTransactions *)
Theorem C93_transactions : ∀ u u' (t : nat → Z) (g : nat → nat), ∃ d d1 d2 d3,
  run db_new [OBegin; OAdd (g 0) (t 0) u; OSet (g 1) (t 1) u "test1" "value"; OSet (g 2) (t 2) u "test2" "value"] = Ok d ∧
  length (vis (db_log d)) = 3 ∧
  Rollback d = Ok d1 ∧ length (vis (db_log d1)) = 0 ∧
  run d1 [OBegin; OAdd (g 3) (t 3) u'; OSet (g 4) (t 4) u' "test1" "value"; OSet (g 5) (t 5) u' "test2" "value"] = Ok d2 ∧
  length (vis (db_log d2)) = 3 ∧
  Commit d2 = Ok d3 ∧ length (vis (db_log d3)) = 3 ∧ db_txpoint d3 = 0.
Proof.
  intros u u' t g. change (run db_new (OBegin :: ?l)) with (run (Begin db_new) l). written H.
  destruct (rollback_to (db_version (Begin db_new)) (db_snapshot (Begin db_new)) x (db_txpoint (Begin db_new))) as [sp R]; [cbn; lia..|].
  eexists _, _. match type of R with _ = Ok ?d1 => set (dd := d1) in R end.
  change (run dd (OBegin :: ?l)) with (run (Begin dd) l).
  assert (∃ y, run (Begin dd) [OAdd (g 3) (t 3) u'; OSet (g 4) (t 4) u' "test1" "value"; OSet (g 5) (t 5) u' "test2" "value"] =
    Ok (mk_db 0 None y 1) ∧ length (vis y) = 3) as (y & Ey & Ly).
  { destruct (run_writes [OAdd (g 3) (t 3) u'; OSet (g 4) (t 4) u' "test1" "value"; OSet (g 5) (t 5) u' "test2" "value"] (Begin dd) _ eq_refl) as (y & Ey & Hy).
    exists y. split; [exact Ey|]. by rewrite Hy. }
  eexists _, _. split; [reflexivity|]. split; [cbn [db_log]; by rewrite H|].
  split; [exact R|]. split; [reflexivity|]. split; [exact Ey|]. split; [exact Ly|]. split; [reflexivity|]. split; [exact Ly|reflexivity].
Qed.
Print Assumptions C93_transactions.

(** txlogs_test.go:498-543, TestTransactionsDo *)
Theorem C93_do : ∀ u u' (t : nat → Z) (g : nat → nat) e, ∃ d d',
  (* the snapshot is there before the function returns *)
  (∃ d0, run (Begin db_new) [OAdd (g 0) (t 0) u; OSet (g 1) (t 1) u "test1" "value"; OSet (g 2) (t 2) u "test2" "value"; OUpdate] = Ok d0 ∧
     is_Some (db_snapshot d0)) ∧
  Do db_new [OAdd (g 0) (t 0) u; OSet (g 1) (t 1) u "test1" "value"; OSet (g 2) (t 2) u "test2" "value"; OUpdate] (Some e) = Ok (d, Some e) ∧
  db_snapshot d = None ∧ length (vis (db_log d)) = 0 ∧
  Do d [OAdd (g 3) (t 3) u'; OSet (g 4) (t 4) u' "test1" "value"; OSet (g 5) (t 5) u' "test2" "value"] None = Ok (d', None) ∧
  length (vis (db_log d')) = 3.
Proof.
  intros u u' t g e.
  assert (∃ s x, run (Begin db_new) [OAdd (g 0) (t 0) u; OSet (g 1) (t 1) u "test1" "value"; OSet (g 2) (t 2) u "test2" "value"; OUpdate] =
    Ok (mk_db 3 (Some s) x 1)) as (s & x & E).
  { change ([?a; ?b; ?c; OUpdate]) with ([a; b; c] ++ [OUpdate]). rewrite run_app. written H.
    change (vis (db_log (Begin db_new))) with (@nil tx) in H. cbn [app] in H.
    eexists _, _. cbn [run step]. erewrite update_by; [reflexivity|exact H|cbn; lia|].
    change (snap_of _) with (∅ : snapshot). cbn [drop db_version db_new Begin]. replays. }
  unfold Do at 1. rewrite E.
  destruct (rollback_reset 3 (Some s) x 1) as [sp R]; [lia..|]. rewrite R.
  destruct (run_writes [OAdd (g 3) (t 3) u'; OSet (g 4) (t 4) u' "test1" "value"; OSet (g 5) (t 5) u' "test2" "value"]
    (Begin (mk_db 0 None (mk_slice (take (1 - 1) (vis x)) sp) 0)) _ eq_refl) as (y & Ey & Hy).
  eexists _, _. split; [eexists; split; [reflexivity|by eexists]|]. split; [reflexivity|]. split; [reflexivity|]. split; [reflexivity|].
  unfold Do. rewrite Ey. split; [reflexivity|]. cbn [db_log]. by rewrite Hy.
Qed.
Print Assumptions C93_do.

(** txlogs_test.go:545-590, TestRollbackN *)
Theorem C93_rollback_n : ∀ u (t : nat → Z) (g : nat → nat), ∃ d d1 d2 d3 d4 d5 e,
  run db_new [OAdd (g 0) (t 0) u; OSet (g 1) (t 1) u "test1" "value"; OSet (g 2) (t 2) u "test2" "value"] = Ok d ∧
  UpdateSnapshot d = (d1, Ok tt) ∧
  run d1 [OSet (g 3) (t 3) u "test1" "notvalue"] = Ok d2 ∧
  RollbackN 5 d2 = (d2, Fail e) ∧
  RollbackN 1 d2 = (d3, Ok tt) ∧ length (vis (db_log d3)) = 3 ∧ is_Some (db_snapshot d3) ∧
  RollbackN 1 d3 = (d4, Ok tt) ∧ length (vis (db_log d4)) = 2 ∧ db_snapshot d4 = None ∧
  UpdateSnapshot d4 = (d5, Ok tt) ∧
  ∃ en, snap_of d5 !! u = Some en ∧ en !! "test1" = Some "value" ∧ en !! "test2" = None.
Proof.
  intros u t g. written H.
  assert (∃ s, UpdateSnapshot (mk_db (db_version db_new) (db_snapshot db_new) x (db_txpoint db_new)) = (mk_db 3 (Some s) x 0, Ok tt)) as (s & E).
  { eexists. eapply update_by; [exact H|cbn; lia|]. change (snap_of _) with (∅ : snapshot). cbn [drop db_version db_new]. replays. }
  destruct (run_writes [OSet (g 3) (t 3) u "test1" "notvalue"] (mk_db 3 (Some s) x 0) _ eq_refl) as (y & Ey & Hy).
  cbn [db_version db_snapshot db_log db_txpoint] in Ey, Hy. rewrite H in Hy. cbn [app] in Hy.
  destruct (rollbackN_by 1 3 (Some s) y 0) as [sp R]; [lia|rewrite Hy; cbn; lia|]. rewrite Hy in R. cbn [length Nat.sub Nat.ltb Nat.leb take] in R.
  match type of R with _ = (mk_db _ _ ?l _, _) => set (z := l) in R end.
  destruct (rollbackN_by 1 3 (Some s) z 0) as [sp' R']; [lia|cbn; lia|]. cbn [vis z length Nat.sub Nat.ltb Nat.leb take] in R'.
  eexists _, _, _, _, _, _, _. split; [reflexivity|]. split; [exact E|]. split; [exact Ey|].
  split; [unfold RollbackN; cbn [db_log]; rewrite Hy; reflexivity|].
  split; [exact R|]. split; [reflexivity|]. split; [by eexists|]. split; [exact R'|]. split; [reflexivity|]. split; [reflexivity|].
  split; [eapply update_by; [reflexivity|cbn; lia|change (snap_of _) with (∅ : snapshot); cbn [drop db_version vis db_log]; replays]|].
  eexists. rewrite snap_mk. split; [maps; reflexivity|]. split; maps; reflexivity.
Qed.
Print Assumptions C93_rollback_n.

(** txlogs_test.go:592-623, TestNVersions, and 625-640, TestLastUpdated *)
Theorem C93_versions : ∀ u u2 (t : nat → Z) (g : nat → nat), u ≠ u2 → ∃ d d1 d2,
  NVersions db_new "" = 0 ∧
  run db_new [OAdd (g 0) (t 0) u] = Ok d ∧ NVersions d u = 1 ∧
  run d [OAdd (g 1) (t 1) u2] = Ok d1 ∧ NVersions d1 u = 1 ∧
  run d1 [OSet (g 2) (t 2) u "test1" "value"] = Ok d2 ∧ NVersions d2 u = 2.
Proof.
  intros u u2 t g Hu. eexists _, _, _. split; [reflexivity|].
  assert (u =? u = true)%string as E1 by apply String.eqb_refl. assert (u2 =? u = false)%string as E2 by (apply String.eqb_neq; congruence).
  assert (∀ d o x, wtx o = Some x → ∃ s, run d [o] = Ok (mk_db (db_version d) (db_snapshot d) s (db_txpoint d)) ∧ vis s = vis (db_log d) ++ [x]) as W.
  { intros d o x Hx. apply run_writes. cbn. by rewrite Hx. }
  split; [reflexivity|]. split; [unfold NVersions; cbn; by rewrite E1|].
  split; [reflexivity|]. split; [unfold NVersions, Model_TxLog.Add, appendLog; cbn [db_log]; rewrite !slice_append_vis; cbn; by rewrite E1, E2|].
  split; [reflexivity|]. unfold NVersions, Model_TxLog.Set_, Model_TxLog.Add, appendLog. cbn [db_log]. rewrite !slice_append_vis. cbn. by rewrite E1, E2.
Qed.
Print Assumptions C93_versions.
Theorem C93_last_updated : ∀ u g (t now : Z), (t ≤ now)%Z →
  LastUpdated db_new "" = (-1)%Z ∧ ∃ d, run db_new [OAdd g t u] = Ok d ∧ (LastUpdated d u ≤ now)%Z.
Proof.
  intros u g t now H. split; [reflexivity|]. eexists. split; [reflexivity|]. unfold LastUpdated. cbn. by rewrite String.eqb_refl.
Qed.
Print Assumptions C93_last_updated.

(** ** fuzzy/fuzzy_test.go *)

(** [unicode.ToLower] on ASCII; nothing is said of other letters. *)
Definition lowers_ascii (lower : Z → Z) : Prop := ∀ r, (0 ≤ r < 128)%Z → lower r = if ((65 <=? r) && (r <=? 90))%Z then (r + 32)%Z else r.
Example lowers_ascii_example : lowers_ascii toy_lower.
Proof. intros r Hr. unfold toy_lower, inr. destruct ((65 <=? r) && (r <=? 90))%Z; [reflexivity|]. by rewrite (proj2 (Z.eqb_neq r 570)), (proj2 (Z.eqb_neq r 574)) by lia. Qed.

Lemma lowers_toy lower : lowers_ascii lower → ∀ r, (0 ≤ r < 128)%Z → lower r = toy_lower r.
Proof. intros H r Hr. by rewrite H, lowers_ascii_example by done. Qed.

Ltac fuzz H := repeat (constructor; [cbn [fst snd]; unfold MatchFold; rewrite ?(ToLower_ext _ _ _ H) by (apply ascii_by; reflexivity);
  rewrite (Match_ext _ _ _ _ H) by (apply ascii_by; vm_compute; reflexivity); vm_compute; reflexivity|]); constructor.

(** fuzzy_test.go:5-46, TestFuzzy *)
Theorem C93_fuzzy : ∀ lower, lowers_ascii lower →
  Forall (λ p, Match lower p.1 p.2 = Ok true) [("", ""); ("a", ""); ("a", "a"); ("abc", "abc"); ("abc", "ac"); ("abc", "c");
    ("ABC", "abc"); ("ABC", "ac"); ("ABC", "c"); ("ABC", "ABC"); ("ABC", "AC"); ("ABC", "A")] ∧
  Forall (λ p, Match lower p.1 p.2 = Ok false) [("", "a"); ("a", "ab"); ("a", "b"); ("a", "A"); ("abc", "ABC"); ("abc", "AC"); ("abc", "C")].
Proof. intros lower H0. pose proof (lowers_toy lower H0) as H. split; fuzz H. Qed.
Print Assumptions C93_fuzzy.

(** fuzzy_test.go:48-84, TestFuzzyFold *)
Theorem C93_fuzzy_fold : ∀ lower, lowers_ascii lower →
  Forall (λ p, MatchFold lower p.1 p.2 = Ok true) [("", ""); ("a", ""); ("a", "a"); ("abc", "abc"); ("abc", "ac"); ("abc", "c");
    ("abc", "ABC"); ("abc", "AC"); ("abc", "C"); ("ABC", "abc"); ("ABC", "ac"); ("ABC", "c"); ("ABC", "ABC"); ("ABC", "AC"); ("ABC", "A")] ∧
  Forall (λ p, MatchFold lower p.1 p.2 = Ok false) [("", "a"); ("a", "b")].
Proof. intros lower H0. pose proof (lowers_toy lower H0) as H. split; fuzz H. Qed.
Print Assumptions C93_fuzzy_fold.

(** ** pkcs7/pad_test.go *)

Definition by_ (l : list Z) : bytes := map Zbyte l.

(** pad_test.go:8-54, TestPKCS7Padding *)
Theorem C93_padding : Forall (λ '(b, n, want), Pad b n = Ok want ∧ Unpad want = Ok b)
  [([], 8%Z, replicate 8 (Zbyte 8)); ([], 1%Z, by_ [1]%Z); (str_bytes "hello", 8%Z, str_bytes "hello" ++ by_ [3; 3; 3]%Z);
   (str_bytes "blobpass", 8%Z, str_bytes "blobpass" ++ replicate 8 (Zbyte 8))].
Proof. repeat (constructor; [split; vm_compute; reflexivity|]); constructor. Qed.
Print Assumptions C93_padding.

(** pad_test.go:56-77, TestPKCS7UnpadErrors *)
Theorem C93_unpad_errors :
  Unpad [] = Fail (EMsg "cannot unpad an empty slice") ∧
  Unpad (by_ [1; 255]%Z) = Fail (EMsg "pkcs7 unpad failed, more padding bytes than is possible was specified") ∧
  Unpad (by_ [2]%Z) = Fail (EMsg "pkcs7 unpad failed, more padding bytes than is possible was specified") ∧
  Unpad (by_ [1; 3; 2]%Z) = Fail (EMsg "pkcs7 unpad failed one of the bytes was incorrect").
Proof. split_and!; vm_compute; reflexivity. Qed.
Print Assumptions C93_unpad_errors.

(** ** passwd_gen_test.go *)

Lemma gen_by ent c : no_overflow 10 c → (minima c ≤ 10)%Z → ¬ all_off c → ∃ pw, genPassword (Some ent) 10 c = Ok pw ∧ meets 10 c pw.
Proof.
  intros H1 H2 H3. pose proof (genPassword_cases (Some ent) 10 c H1) as H. cbn zeta in H.
  rewrite (decide_False (P := (10 < minima c)%Z)) in H by lia. rewrite (decide_False (P := (10 = 0)%Z)) in H by lia.
  rewrite (decide_False (P := all_off c)) in H by done. rewrite (decide_False (P := (10 mod 256 = 0)%Z)) in H by (vm_compute; discriminate).
  exact H.
Qed.

Lemma one_in a pw : (1 ≤ Z.of_nat (count_in a pw))%Z → ∃ x, x ∈ pw ∧ x ∈ str_bytes a.
Proof.
  unfold count_in. intros H. destruct (filter (λ x, x ∈ str_bytes a) pw) as [|x l] eqn:E; [cbn in H; lia|].
  assert (x ∈ filter (λ x, x ∈ str_bytes a) pw) as Hx by (rewrite E; left). apply elem_of_list_filter in Hx as [H1 H2]. by exists x.
Qed.

(** passwd_gen_test.go:9-56, TestGenPasswd, for all random bytes *)
Theorem C93_gen_passwd : ∀ ent, ∃ p1 p2 p3,
  genPassword (Some ent) 10 (Build_classes 0 0 0 0 0) = Ok p1 ∧ length p1 = 10 ∧
  genPassword (Some ent) 10 (Build_classes 1 1 1 1 1) = Ok p2 ∧ length p2 = 10 ∧
  Forall (λ a, ∃ x, x ∈ p2 ∧ x ∈ str_bytes a) [alphabetUppercase; alphabetLowercase; alphabetNumbers; alphabetBasicSymbols; alphabetExtraSymbols] ∧
  genPassword (Some ent) 10 (Build_classes 0 (-1) (-1) (-1) (-1)) = Ok p3 ∧ length p3 = 10 ∧
  (∀ x, x ∈ p3 → x ∈ str_bytes alphabetUppercase).
Proof.
  intros ent.
  destruct (gen_by ent (Build_classes 0 0 0 0 0)) as (p1 & E1 & L1 & _); [split; vm_compute; reflexivity|vm_compute; discriminate| |].
  { intros H. specialize (H alphabetUppercase 0%Z). cbn in H. assert (0 < 0)%Z; [|lia]. apply H. left. }
  destruct (gen_by ent (Build_classes 1 1 1 1 1)) as (p2 & E2 & L2 & M2 & _); [split; vm_compute; reflexivity|vm_compute; discriminate| |].
  { intros H. specialize (H alphabetUppercase 1%Z). cbn in H. assert (1 < 0)%Z; [|lia]. apply H. left. }
  destruct (gen_by ent (Build_classes 0 (-1) (-1) (-1) (-1))) as (p3 & E3 & L3 & _ & M3); [split; vm_compute; reflexivity|vm_compute; discriminate| |].
  { intros H. specialize (H alphabetUppercase 0%Z). cbn in H. assert (0 < 0)%Z; [|lia]. apply H. left. }
  exists p1, p2, p3. split; [exact E1|]. split; [lia|]. split; [exact E2|]. split; [lia|]. split.
  - repeat constructor; apply one_in; eapply (M2 _ 1%Z); unfold class_of; cbn [c_upper c_lower c_numbers c_basic c_extra]; rewrite !elem_of_cons; tauto.
  - split; [exact E3|]. split; [lia|]. intros x Hx. destruct (M3 x Hx) as (a & n & Ha & Hn & Hxa).
    unfold class_of in Ha. cbn [c_upper c_lower c_numbers c_basic c_extra] in Ha.
    rewrite !elem_of_cons, elem_of_nil in Ha. destruct Ha as [Ha|Ha]; [injection Ha as -> _; exact Hxa|].
    destruct Ha as [Ha|[Ha|[Ha|[Ha|[]]]]]; injection Ha as _ ->; lia.
Qed.
Print Assumptions C93_gen_passwd.

(** ** crypt/params_test.go *)

Definition zero (n : nat) : bytes := replicate n (Zbyte 0).
Definition params (n u : Z) (keys salts users ivs mkeys : list bytes) : Model_Crypt.Params :=
  {| p_version := 0; NUsers := n; User := u; Keys := keys; Salts := salts; Users := users; IVs := ivs; MKeys := mkeys; IVM := None; Master := None |}.

(** params_test.go:8-164, TestParamsValidateV1.  The third case gives a salt of
    the length of a key: the key is looked at first. *)
Theorem C93_params :
  let k := zero 80 in let s := zero 32 in let i := zero 40 in
  Forall (λ '(e, p), validate v1 p = Fail (EMsg e))
    [("must have at least one key", params 0 0 [] [] [] [] []);
     ("must have at least one salt", params 0 0 [k] [] [] [] []);
     ("keys[%d] must be %d bytes", params 0 0 [zero 1] [k] [] [] []);
     ("salts[%d] must be %d bytes", params 0 0 [k] [zero 1] [] [] []);
     ("each user must have a key", params 2 0 [k] [s] [] [] []);
     ("each user must have a salt", params 2 0 [k; k] [s] [] [] []);
     ("user should be an index of 0 <= user < nUsers", params 2 (-1) [k; k] [s; s] [] [] []);
     ("users must be the same length as nusers", params 2 0 [k; k] [s; s] [] [] []);
     ("ivs must be the same length as nusers", params 2 0 [k; k] [s; s] [s; s] [] []);
     ("ivs[%d] must be %d bytes", params 2 0 [k; k] [s; s] [s; s] [zero 1; zero 1] []);
     ("mkeys must be the same length as nusers", params 2 0 [k; k] [s; s] [s; s] [i; i] []);
     ("mkeys[%d] must be %d bytes", params 2 0 [k; k] [s; s] [s; s] [i; i] [zero 1; zero 1])] ∧
  Forall (λ p, validate v1 p = Ok tt) [params 0 0 [k] [s] [] [] []; params 2 0 [k; k] [s; s] [s; s] [i; i] [k; k]].
Proof. cbn zeta. split; repeat (constructor; [vm_compute; reflexivity|]); constructor. Qed.
Print Assumptions C93_params.

(** ** crypt/crypto_test.go *)

Definition pt : bytes := str_bytes "plaintext goes here".

(** crypto_test.go:10-77, TestCrypt, for all primitives, salts and IVs; [sp]
    are the bytes that lie behind the file in memory.  That the plain text is
    not to be seen is not claimed: it depends on the ciphers. *)
Theorem C93_crypt : ∀ P salt riv sp, prims_ok P → length salt = 32 → length riv = 40 →
  let key := key_of P (str_bytes "hunter42") salt in
  DeriveKey P 1 (str_bytes "hunter42") (Some salt) = Ok (key, salt) ∧
  ∃ f p, Encrypt P 1 (params 0 0 [key] [salt] [] [] []) (Some riv) pt = Ok f ∧
    Decrypt P [] (str_bytes "hunter42") None [] (mk_slice f sp) = Ok (1%Z, p, pt) ∧
    Keys p = [key] ∧ Salts p = [salt] ∧
    Decrypt P [] [] (Some key) salt (mk_slice f sp) = Ok (1%Z, p, pt).
Proof.
  intros P salt riv sp HP Hs Hr key. split; [reflexivity|].
  assert (length key = 80) as Hk by apply scrypt_len, HP.
  destruct (single_round_trip P (params 0 0 [key] [salt] [] [] []) riv pt key salt sp HP) as (f & E & D1 & D2); try reflexivity; try done.
  { apply validate_ok. split; [|left; reflexivity]. unfold sizes_ok. cbn [params Keys Salts]. split_and!; try discriminate; constructor; auto. }
  { intros He. rewrite He in Hk. discriminate Hk. }
  exists f, (single_params key salt riv). split; [exact E|]. split; [apply D2; [discriminate|reflexivity|left; reflexivity]|].
  split; [reflexivity|]. split; [reflexivity|]. apply D1.
Qed.
Print Assumptions C93_crypt.

(** crypto_test.go:79-208, TestCryptMulti, for all primitives that hash the two
    names differently *)
Theorem C93_crypt_multi : ∀ P salt1 salt2 iv1 iv2 master ivm riv sp, prims_ok P →
  length salt1 = 32 → length salt2 = 32 → length iv1 = 40 → length iv2 = 40 → length master = 80 → length ivm = 40 →
  let user1 := str_bytes "user1" in let user2 := str_bytes "user2" in sha256 P user1 ≠ sha256 P user2 →
  let pass1 := str_bytes "hunter42?" in let pass2 := str_bytes "hunter42!" in
  let key1 := key_of P pass1 salt1 in let key2 := key_of P pass2 salt2 in
  NewMasterKey 1 (Some master) (Some ivm) = Ok (master, ivm) ∧
  DeriveKey P 1 pass1 (Some salt1) = Ok (key1, salt1) ∧ DeriveKey P 1 pass2 (Some salt2) = Ok (key2, salt2) ∧
  ∃ mkey1 mkey2, EncryptMasterKey P 1 key1 master (Some iv1) = Ok (mkey1, iv1) ∧ EncryptMasterKey P 1 key2 master (Some iv2) = Ok (mkey2, iv2) ∧
  let p := {| p_version := 1; NUsers := 2; User := 0; Keys := [key1; key2]; Salts := [salt1; salt2]; Users := [sha256 P user1; sha256 P user2];
              IVs := [iv1; iv2]; MKeys := [mkey1; mkey2]; IVM := Some ivm; Master := Some master |} in
  ∃ f q q', Encrypt P 1 p riv pt = Ok f ∧
    Decrypt P user1 pass1 None [] (mk_slice f sp) = Ok (1%Z, q, pt) ∧
    NUsers q = 2%Z ∧ Keys q = [key1; []] ∧ Salts q = [salt1; salt2] ∧ IVs q = [iv1; iv2] ∧ MKeys q = [mkey1; mkey2] ∧
    IVM q = Some ivm ∧ Master q = Some master ∧
    Decrypt P user2 [] (Some key2) salt2 (mk_slice f sp) = Ok (1%Z, q', pt).
Proof.
  intros P salt1 salt2 iv1 iv2 master ivm riv sp HP S1 S2 I1 I2 LM LI user1 user2 Hne pass1 pass2 key1 key2.
  split; [reflexivity|]. split; [reflexivity|]. split; [reflexivity|].
  assert (length key1 = 80) as K1 by apply scrypt_len, HP. assert (length key2 = 80) as K2 by apply scrypt_len, HP.
  destruct (EncryptMasterKey_ok P key1 master iv1 HP K1 LM I1) as (mkey1 & E1 & M1 & _).
  destruct (EncryptMasterKey_ok P key2 master iv2 HP K2 LM I2) as (mkey2 & E2 & M2 & _).
  exists mkey1, mkey2. split; [exact E1|]. split; [exact E2|]. cbn zeta.
  match goal with |- ∃ _ _ _, Encrypt _ _ ?x _ _ = _ ∧ _ => remember x as p eqn:Hp end.
  assert (multi_ok p) as Hok.
  { split; [|subst p; split; [cbn; lia|split; eexists; reflexivity]]. apply validate_ok. subst p. split.
    - unfold sizes_ok. cbn [Keys Salts]. split_and!; try discriminate; do 2 (constructor; [auto|]); constructor.
    - right. split; [discriminate|]. unfold multi_sizes_ok. cbn [Keys Salts NUsers User Users IVs MKeys IVM Master].
      split_and!; try reflexivity; try lia; try (do 2 (constructor; [auto using sha256_len|]); constructor); intros b [= <-]; done. }
  assert (enrolled P p 0 user1 key1) as En1.
  { subst p. split; [reflexivity|]. split; [intros j Hj; lia|]. exists master, iv1, mkey1. split_and!; try reflexivity. exact E1. }
  assert (enrolled P p 1 user2 key2) as En2.
  { subst p. split; [reflexivity|]. split; [|exists master, iv2, mkey2; split_and!; try reflexivity; exact E2].
    intros j Hj. assert (j = 0) as -> by lia. cbn. intros [= H]. by apply Hne. }
  assert (NUsers p ≤ 9999)%Z as Hn by (subst p; cbn; lia).
  destruct (multi_round_trip P p riv pt 0 user1 key1 sp HP Hok Hn En1) as (f & salt & E & Hs & _ & D1); [discriminate|].
  destruct (multi_round_trip P p riv pt 1 user2 key2 sp HP Hok Hn En2) as (f' & salt' & E' & Hs' & D2 & _); [discriminate|].
  rewrite E in E'. injection E' as <-.
  assert (salt = salt1) as -> by (subst p; cbn in Hs; congruence). assert (salt' = salt2) as -> by (subst p; cbn in Hs'; congruence).
  exists f, (params_for p 0 key1), (params_for p 1 key2). split; [exact E|].
  split; [apply D1; [discriminate|reflexivity|left; reflexivity]|]. split_and!; try (subst p; reflexivity). apply D2.
Qed.
Print Assumptions C93_crypt_multi.

Example C93_crypt_example : prims_ok toy.
Proof. exact toy_ok. Qed.
