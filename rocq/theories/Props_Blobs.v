(** Properties C23-C36: entries, names, labels, searching. *)
From Verif Require Import Spec_Blobs Spec_Merge Proof_GoStr Proof_TxLog Proof_Merge Proof_Fuzzy Proof_Blobs Proof_Blobs2.
From Coq Require Import Lia.
From stdpp Require Import options.
Import Model_GoStr.

(** ** Material for the examples *)
Definition env_at (t : Z) (u : string) : env :=
  mk_env (λ i, t + Z.of_nat i)%Z (λ _, 0%nat) u (λ _ m, map_to_list m).
Lemma env_at_fair t u : fair (env_at t u).
Proof. intros j m. reflexivity. Qed.
#[local] Hint Resolve env_at_fair : core.

(** The store after some operations. *)
Definition after (ops : list bop) : db := fold_left (λ d o, (bstep d o).1) ops db_new.
Definition content (d : db) : snapshot := default ∅ (replay_fn ∅ (vis (db_log d))).

Definition ops1 : list bop :=
  [BNew (env_at 10 "u1") "mail/work"; BSet (env_at 20 "") "u1" "pass" "hunter2";
   BNew (env_at 30 "u2") "mail/home"; BAddLabel (env_at 40 "") "u1" "a"; BAddLabel (env_at 50 "") "u1" "b";
   BNewUser (env_at 60 "u3") "alice"].
Definition store1 : db := after ops1.
Definition m1 : snapshot := content store1.

Lemma store1_holds : holds store1 m1.
Proof.
  split; [|apply replay_fn_ok; compute_dec].
  split; [compute_dec|]. apply replay_fn_ok. compute_dec.
Qed.

Lemma all_entries_b (P : string * entry → bool) (m : snapshot) u b :
  forallb P (map_to_list m) = true → m !! u = Some b → P (u, b) = true.
Proof. rewrite forallb_forall. intros H Hb. apply H. by apply elem_of_list_In, elem_of_map_to_list. Qed.

(** Decides names of a concrete store. *)
Definition named_b (m : snapshot) : bool :=
  forallb (λ p : string * entry, if decide (is_Some (p.2 !! "name")) then true else false) (map_to_list m).
Lemma named_b_ok m : named_b m = true → all_named m.
Proof.
  unfold named_b. rewrite forallb_forall. intros H u b Hb.
  specialize (H (u, b) ltac:(by apply elem_of_list_In, elem_of_map_to_list)). simpl in H.
  destruct (decide _) as [[n Hn]|]; [eauto|done].
Qed.
Definition unique_b (m : snapshot) : bool :=
  if decide (NoDup (omap (λ p : string * entry, p.2 !! "name") (map_to_list m))) then true else false.
Lemma unique_b_ok m : unique_b m = true → names_unique m.
Proof.
  unfold unique_b. destruct (decide _) as [Hnd|]; [|done]. intros _ u1 u2 n (b1 & H1 & N1) (b2 & H2 & N2).
  assert (∀ l : list (string * entry), NoDup (omap (λ p : string * entry, p.2 !! "name") l) →
    (u1, b1) ∈ l → (u2, b2) ∈ l → u1 = u2) as Hl; [|eapply Hl; [exact Hnd|..]; by apply elem_of_map_to_list].
  induction l as [|[u b] l IH]; intros Hd E1 E2; [by apply elem_of_nil in E1|].
  assert (∀ u' b', (u', b') ∈ l → b' !! "name" = Some n →
     n ∈ omap (λ p : string * entry, p.2 !! "name") l) as Hin.
  { intros u' b' H' Hn'. apply elem_of_list_omap. by exists (u', b'). }
  simpl in Hd. unfold omap in Hd; simpl in Hd.
  apply elem_of_cons in E1. apply elem_of_cons in E2. destruct E1 as [E1|E1], E2 as [E2|E2]; simplify_eq; [done|..].
  - exfalso. rewrite N1 in Hd. apply NoDup_cons in Hd as [Hd _]. apply Hd. eapply Hin; eauto.
  - exfalso. rewrite N2 in Hd. apply NoDup_cons in Hd as [Hd _]. apply Hd. eapply Hin; eauto.
  - apply IH; [|done|done]. destruct (b !! "name"); [by apply NoDup_cons in Hd as [_ Hd]|done].
Qed.
Lemma m1_well : well_named m1.
Proof. split; [apply named_b_ok|apply unique_b_ok]; vm_compute; reflexivity. Qed.

(** ** C23 *)

(** Every store the operations can build, with every choice of iteration order,
    holds named entries with distinct names... *)
Theorem C23_names_unique_and_present : ∀ d, reach d → ∃ m, holds d m ∧ well_named m.
Proof. exact reach_inv. Qed.
Print Assumptions C23_names_unique_and_present.

(** ... and none of the operations panics on such a store. *)
Theorem C23_operations_no_crash : ∀ d o d' r, reach d → allowed d o → bstep d o = (d', r) → r ≠ Panic.
Proof. intros d o d' r Hr Ha Hs. exact (proj2 (bstep_inv d o d' r (reach_inv d Hr) Ha Hs)). Qed.
Print Assumptions C23_operations_no_crash.

(** A taken name is refused, by New and by Rename, without any change. *)
Theorem C23_taken_name_refused : ∀ e n d m u, holds d m → all_named m → fair e → called m u n →
  ∃ d', New e 0 n d = (d', Fail ENameNotUnique) ∧ vis (db_log d') = vis (db_log d) ∧ holds d' m.
Proof.
  intros e n d m u Hh Ha Hf Hc. destruct (New_spec e 0 n d m Hh Ha Hf) as [(_ & d' & H1 & H2 & H3 & _)|[Hno _]].
  - by exists d'.
  - by destruct (Hno u).
Qed.
Print Assumptions C23_taken_name_refused.

Theorem C23_rename_to_taken_refused : ∀ e n d m u u' b, holds d m → all_named m → fair e → m !! u = Some b →
  called m u' n →
  ∃ d', Rename e u n d = (d', Fail ENameNotUnique) ∧ vis (db_log d') = vis (db_log d) ∧ holds d' m.
Proof.
  intros e n d m u u' b Hh Ha Hf Hb Hc. destruct (Rename_spec e u n d m b Hh Ha Hf Hb) as [(_ & d' & H1 & H2 & H3)|[Hno _]].
  - by exists d'.
  - by destruct (Hno u').
Qed.
Print Assumptions C23_rename_to_taken_refused.

(** A free name is accepted: New adds one entry with that name, Rename changes
    the name of that entry. *)
Theorem C23_new_creates : ∀ e n d m, holds d m → all_named m → fair e → unused d (e_uuid e) →
  (∀ u, ¬ called m u n) →
  ∃ d' b, New e 0 n d = (d', Ok (e_uuid e)) ∧ holds d' (<[e_uuid e := b]> m) ∧ m !! e_uuid e = None ∧
    b !! "name" = Some n ∧ b !! "updated" = Some (FormatInt (e_now e 1)) ∧
    ∀ k, k ≠ "name" → k ≠ "updated" → b !! k = None.
Proof.
  intros e n d m Hh Ha Hf Hun Hno. destruct (New_spec e 0 n d m Hh Ha Hf) as [((u & Hu) & _)|[_ H]].
  - by destruct (Hno u).
  - destruct (H Hun) as (d' & H1 & H2 & _). exists d', (new_entry e n). split; [done|]. split; [done|].
    split; [by eapply unused_lookup|]. unfold new_entry. split; [by rewrite lookup_insert|].
    split; [by rewrite lookup_insert_ne, lookup_insert|]. intros k Hk1 Hk2. by rewrite !lookup_insert_ne.
Qed.
Print Assumptions C23_new_creates.

Theorem C23_rename_renames : ∀ e n d m u b, holds d m → all_named m → fair e → m !! u = Some b →
  (∀ x, ¬ called m x n) →
  ∃ d', Rename e u n d = (d', Ok tt) ∧
    holds d' (<[u := <["name" := n]> (<["updated" := FormatInt (e_now e 0)]> b)]> m).
Proof.
  intros e n d m u b Hh Ha Hf Hb Hno. destruct (Rename_spec e u n d m b Hh Ha Hf Hb) as [((x & Hx) & _)|[_ H]]; [|done].
  by destruct (Hno x).
Qed.
Print Assumptions C23_rename_renames.

Example C23_example : reach store1 ∧ content store1 !! "u3" = Some {[ "name" := "user/alice"; "updated" := "61" ]} ∧
  (New (env_at 70 "u4") 0 "mail/home" store1).2 = Fail ENameNotUnique.
Proof.
  split; [|split; compute_dec].
  assert (∀ d t u n, reach d → unused d u → reach (bstep d (BNew (env_at t u) n)).1) as HN.
  { intros d t u n Hr Hu. eapply (reach_step d (BNew (env_at t u) n)); [done| |apply surjective_pairing]. done. }
  assert (∀ (d : db) (m : snapshot) (u : string) (b : entry),
    replay_fn ∅ (vis (db_log d)) = Some m → m !! u = Some b → live d u) as HL.
  { intros d m u b H1 H2. exists m, b. split; [by apply replay_fn_ok|done]. }
  unfold store1, after, ops1. cbn [fold_left].
  set (d1 := (bstep db_new _).1). set (d2 := (bstep d1 _).1). set (d3 := (bstep d2 _).1).
  set (d4 := (bstep d3 _).1). set (d5 := (bstep d4 _).1).
  assert (∀ (d : db) u, forallb (λ t, negb (String.eqb (tx_uuid t) u)) (vis (db_log d)) = true → unused d u) as HU.
  { intros d u H t Ht. rewrite forallb_forall in H. specialize (H t ltac:(by apply elem_of_list_In)).
    apply negb_true_iff, String.eqb_neq in H. done. }
  assert (∀ (d : db) u, match replay_fn ∅ (vis (db_log d)) with Some m => match m !! u with Some _ => true | None => false end | None => false end = true → live d u) as HLb.
  { intros d u H. destruct (replay_fn ∅ (vis (db_log d))) as [m|] eqn:E; [|done]. destruct (m !! u) as [b|] eqn:E2; [|done]. eauto. }
  assert (reach d1) as R1 by (apply HN; [constructor|apply HU; vm_compute; reflexivity]).
  assert (reach d2) as R2.
  { eapply (reach_step d1 (BSet (env_at 20 "") "u1" "pass" "hunter2")); [done| |apply surjective_pairing]. apply HLb. vm_compute. reflexivity. }
  assert (reach d3) as R3 by (apply HN; [done|apply HU; vm_compute; reflexivity]).
  assert (reach d4) as R4.
  { eapply (reach_step d3 (BAddLabel (env_at 40 "") "u1" "a")); [done| |apply surjective_pairing]. apply HLb. vm_compute. reflexivity. }
  assert (reach d5) as R5.
  { eapply (reach_step d4 (BAddLabel (env_at 50 "") "u1" "b")); [done| |apply surjective_pairing]. apply HLb. vm_compute. reflexivity. }
  eapply (reach_step d5 (BNewUser (env_at 60 "u3") "alice")); [done| |apply surjective_pairing].
  split; [done|]. apply HU. vm_compute. reflexivity.
Qed.

(** ** C24 *)

(** Whatever answers a merge was given, if no name was ever given to two
    entries, names stay unique.  Missing: the same name given on two machines,
    where it fails (below). *)
Theorem C24_names_unique_after_merge_partial : ∀ a b res c m,
  TxMerge a b res = Ok (Merged c) → replays c m → names_never_shared (a ++ b) → names_unique m.
Proof. exact merge_names_unique. Qed.
Print Assumptions C24_names_unique_after_merge_partial.

(** Every entry of the merged store has a name. *)
Theorem C24_names_present_after_merge : ∀ a b c m ma mb,
  valid_log a → valid_log b → compatible a b → no_impostor a b →
  TxMerge a b [] = Ok (Merged c) → replays a ma → replays b mb → all_named ma → all_named mb →
  names_kept (a ++ b) → replays c m → all_named m.
Proof. exact merge_all_named. Qed.
Print Assumptions C24_names_present_after_merge.

Definition fork0 : list tx := [mk_tx 1 "add" "u" "" ""; mk_tx 2 "setk" "u" "name" "mail"]%Z.
Definition forkA : list tx := fork0 ++ [mk_tx 3 "add" "v" "" ""; mk_tx 4 "setk" "v" "name" "bank"]%Z.
Definition forkB : list tx := fork0 ++ [mk_tx 5 "add" "w" "" ""; mk_tx 6 "setk" "w" "name" "bank"; mk_tx 7 "setk" "w" "pass" "x"]%Z.
Definition forkC : list tx := fork0 ++ [mk_tx 5 "add" "w" "" ""; mk_tx 6 "setk" "w" "name" "shop"; mk_tx 7 "setk" "w" "pass" "x"]%Z.

Example C24_example : ∃ c m, TxMerge forkA forkC [] = Ok (Merged c) ∧ replays c m ∧
  names_never_shared (forkA ++ forkC) ∧ names_kept (forkA ++ forkC) ∧ size m = 3%nat.
Proof.
  pose (c := forkA ++ drop 2 forkC). exists c, (default ∅ (replay_fn ∅ c)). split; [vm_compute; reflexivity|].
  split; [apply replay_fn_ok; compute_dec|]. split; [|split; [|compute_dec]].
  - intros x y Hx Hy. unfold forkA, forkC, fork0 in Hx, Hy. simpl in Hx, Hy.
    repeat (apply elem_of_cons in Hx as [-> |Hx]); try (by apply elem_of_nil in Hx);
      repeat (apply elem_of_cons in Hy as [-> |Hy]); try (by apply elem_of_nil in Hy); simpl; congruence.
  - intros x Hx [Hk _]. unfold forkA, forkC, fork0 in Hx. simpl in Hx.
    repeat (apply elem_of_cons in Hx as [-> |Hx]); try (by apply elem_of_nil in Hx); simpl in Hk; congruence.
Qed.

(** Two machines each add an entry called "bank": after the sync there are two
    entries with that name, and nothing renames them. *)
Theorem C24_duplicate_names_refuted : ∃ a b c ma mb m,
  replays a ma ∧ replays b mb ∧ well_named ma ∧ well_named mb ∧
  TxMerge a b [] = Ok (Merged c) ∧ replays c m ∧ ¬ names_unique m.
Proof.
  pose (c := forkA ++ drop 2 forkB).
  exists forkA, forkB, c, (default ∅ (replay_fn ∅ forkA)), (default ∅ (replay_fn ∅ forkB)), (default ∅ (replay_fn ∅ c)).
  split; [apply replay_fn_ok; compute_dec|].
  split; [apply replay_fn_ok; compute_dec|].
  split; [split; [apply named_b_ok|apply unique_b_ok]; vm_compute; reflexivity|].
  split; [split; [apply named_b_ok|apply unique_b_ok]; vm_compute; reflexivity|].
  split; [vm_compute; reflexivity|]. split; [apply replay_fn_ok; compute_dec|].
  intros H. specialize (H "v" "w" "bank"). discriminate H.
  - exists {[ "name" := "bank" ]}. split; compute_dec.
  - exists {[ "name" := "bank"; "pass" := "x" ]}. split; compute_dec.
Qed.
Print Assumptions C24_duplicate_names_refuted.

(** ** C25 *)
Theorem C25_protected_refused : ∀ e i u k v d, protected_key k →
  Set_key e i u k v d = (d, Fail (EKeyNotAllowed k)).
Proof. exact Set_key_refused. Qed.
Print Assumptions C25_protected_refused.

Theorem C25_others_accepted : ∀ e i u k v d, ¬ protected_key k → ∃ d', Set_key e i u k v d = (d', Ok tt).
Proof. intros e i u k v d H. rewrite Set_key_open by done. eauto. Qed.
Print Assumptions C25_others_accepted.

Example C25_example : protected_key "uPdAtEd" ∧ protected_key "MKey" ∧
  protected_key ("m" +:+ bytes_str [226; 132; 170]%Z +:+ "ey") ∧ ¬ protected_key "pass" ∧ ¬ protected_key "names".
Proof. repeat split; try (apply protected_spec; vm_compute; reflexivity); rewrite <-protected_spec; vm_compute; done. Qed.

(** ** C26 *)
Theorem C26_name_and_updated_kept_partial : ∀ e u k d, k = "name" ∨ k = "updated" →
  DeleteKey_key e u k d = (d, Fail (EKeyNotAllowed k)).
Proof. exact DeleteKey_key_refused. Qed.
Print Assumptions C26_name_and_updated_kept_partial.

(** The other protected keys can be deleted: the key goes. *)
Theorem C26_other_protected_deleted_refuted : ∀ e u k d m b, holds d m → m !! u = Some b →
  k = "totp" ∨ k = "salt" ∨ k = "iv" ∨ k = "mkey" →
  protected_key k ∧ ∃ d' b', DeleteKey_key e u k d = (d', Ok tt) ∧ holds d' (<[u := b']> m) ∧ b' !! k = None.
Proof.
  intros e u k d m b Hh Hb Hk. split.
  - apply protected_spec. destruct Hk as [-> |[-> |[-> | ->]]]; reflexivity.
  - destruct (DeleteKey_key_spec e u k d m b Hh Hb) as (d' & H1 & H2 & _).
    + by destruct Hk as [-> |[-> |[-> | ->]]].
    + by destruct Hk as [-> |[-> |[-> | ->]]].
    + eexists d', _. split; [done|]. split; [done|]. by rewrite lookup_delete.
Qed.
Print Assumptions C26_other_protected_deleted_refuted.

(** Other letter cases are not refused either, unlike for Set. *)
Theorem C26_case_not_folded_refuted : ∃ e u k d d', protected_key k ∧ DeleteKey_key e u k d = (d', Ok tt).
Proof.
  exists (env_at 5 ""), "u1", "NAME", store1, (DeleteKey_key (env_at 5 "") "u1" "NAME" store1).1.
  split; [apply protected_spec; reflexivity|]. compute_dec.
Qed.
Print Assumptions C26_case_not_folded_refuted.

(** ** C27 *)
Theorem C27_set_changes_one_key : ∀ e i u k v d m b,
  holds d m → m !! u = Some b → ¬ protected_key k →
  ∃ d' m' b', Set_key e i u k v d = (d', Ok tt) ∧ holds d' m' ∧ m' !! u = Some b' ∧
    b' !! k = Some v ∧ b' !! "updated" = Some (FormatInt (e_now e i)) ∧
    (∀ k', k' ≠ k → k' ≠ "updated" → b' !! k' = b !! k') ∧
    (∀ u', u' ≠ u → m' !! u' = m !! u') ∧
    EntrySnapshotAt d' u 2 = Ok b.
Proof.
  intros e i u k v d m b Hh Hb Hk.
  destruct (Set_key_spec e i u k v d m b Hh Hb Hk) as (d' & H1 & H2 & H3).
  pose proof (protected_ne k Hk) as [_ Hku].
  eexists d', _, _. split; [done|]. split; [done|]. split; [by rewrite lookup_insert|].
  split; [by rewrite lookup_insert|]. split; [by rewrite lookup_insert_ne, lookup_insert|].
  split; [intros k' Hn1 Hn2; by rewrite !lookup_insert_ne|].
  split; [intros u' Hne; by rewrite lookup_insert_ne|].
  eapply prev_version; [exact Hh|exact Hb| | |exact H3]; done.
Qed.
Print Assumptions C27_set_changes_one_key.

Theorem C27_deletekey_changes_one_key : ∀ e u k d m b,
  holds d m → m !! u = Some b → k ≠ "name" → k ≠ "updated" →
  ∃ d' m' b', DeleteKey_key e u k d = (d', Ok tt) ∧ holds d' m' ∧ m' !! u = Some b' ∧
    b' !! k = None ∧ b' !! "updated" = Some (FormatInt (e_now e 0)) ∧
    (∀ k', k' ≠ k → k' ≠ "updated" → b' !! k' = b !! k') ∧
    (∀ u', u' ≠ u → m' !! u' = m !! u') ∧
    EntrySnapshotAt d' u 2 = Ok b.
Proof.
  intros e u k d m b Hh Hb Hk1 Hk2.
  destruct (DeleteKey_key_spec e u k d m b Hh Hb Hk1 Hk2) as (d' & H1 & H2 & H3).
  eexists d', _, _. split; [done|]. split; [done|]. split; [by rewrite lookup_insert|].
  split; [by rewrite lookup_delete|]. split; [by rewrite lookup_delete_ne, lookup_insert|].
  split; [intros k' Hn1 Hn2; by rewrite lookup_delete_ne, lookup_insert_ne|].
  split; [intros u' Hne; by rewrite lookup_insert_ne|].
  eapply prev_version; [exact Hh|exact Hb| | |exact H3]; done.
Qed.
Print Assumptions C27_deletekey_changes_one_key.

Example C27_example : holds store1 m1 ∧ m1 !! "u1" ≫= lookup "pass" = Some "hunter2" ∧
  EntrySnapshotAt (Set_key (env_at 90 "") 0 "u1" "pass" "new" store1).1 "u1" 2 = Ok (default ∅ (m1 !! "u1")).
Proof. split; [apply store1_holds|]. split; compute_dec. Qed.

(** ** C28 *)
Theorem C28_lookup_exact : ∀ e n d m, holds d m → all_named m → fair e →
  ∃ d' r, FindByName e n d = (d', Ok r) ∧ holds d' m ∧ vis (db_log d') = vis (db_log d) ∧
    match r with
    | Some (u, b) => m !! u = Some b ∧ b !! "name" = Some n
    | None => ∀ u, ¬ called m u n
    end.
Proof. exact FindByName_spec. Qed.
Print Assumptions C28_lookup_exact.

Theorem C28_lookup_deterministic : ∀ e1 e2 n d m, holds d m → well_named m → fair e1 → fair e2 →
  FindByName e1 n d = FindByName e2 n d.
Proof. exact FindByName_det. Qed.
Print Assumptions C28_lookup_deterministic.

Example C28_example : holds store1 m1 ∧ well_named m1 ∧ fair (env_at 1 "") ∧
  (FindByName (env_at 1 "") "mail/home" store1).2 = Ok (Some ("u2", {[ "name" := "mail/home"; "updated" := "31" ]})) ∧
  (FindByName (env_at 1 "") "mail" store1).2 = Ok None.
Proof.
  split; [apply store1_holds|]. split; [apply m1_well|]. split; [done|]. split; compute_dec.
Qed.

(** ** C29 *)

(** Names must be well-formed text whose lower case is not longer (C37); for
    other names the search crashes. *)
Theorem C29_search_exact_partial : ∀ lower e q d m,
  holds d m → all_named m → plain_names lower m → fair e →
  ∃ d' r, Search lower e q d = (d', Ok r) ∧ holds d' m ∧ vis (db_log d') = vis (db_log d) ∧
    exactly m (λ b, ∃ n, b !! "name" = Some n ∧ name_matches lower q n) r.
Proof. exact Search_spec. Qed.
Print Assumptions C29_search_exact_partial.

Theorem C29_empty_query_matches_all : ∀ lower n, name_matches lower "" n.
Proof. exact name_matches_empty. Qed.
Print Assumptions C29_empty_query_matches_all.

Theorem C29_order_irrelevant_partial : ∀ lower e1 e2 q d m,
  holds d m → all_named m → plain_names lower m → fair e1 → fair e2 →
  ∃ d1 d2 r1 r2, Search lower e1 q d = (d1, Ok r1) ∧ Search lower e2 q d = (d2, Ok r2) ∧ res_map r1 = res_map r2.
Proof.
  intros lower e1 e2 q d m Hh Ha Hp H1 H2.
  destruct (Search_spec lower e1 q d m Hh Ha Hp H1) as (d1 & r1 & R1 & _ & _ & E1).
  destruct (Search_spec lower e2 q d m Hh Ha Hp H2) as (d2 & r2 & R2 & _ & _ & E2).
  exists d1, d2, r1, r2. split; [done|]. split; [done|]. by eapply exactly_det.
Qed.
Print Assumptions C29_order_irrelevant_partial.

Lemma m1_plain : plain_names toy_lower m1.
Proof.
  intros u n (b & Hb & Hn).
  assert (existsb (String.eqb n) ["mail/work"; "mail/home"; "user/alice"] = true) as H.
  { set (P := λ p : string * entry, match p.2 !! "name" with
      | Some x => existsb (String.eqb x) ["mail/work"; "mail/home"; "user/alice"] | None => false end).
    assert (P (u, b) = true) as HP by (apply (all_entries_b P m1 u b); [vm_compute; reflexivity|exact Hb]).
    unfold P in HP. cbn [snd] in HP. by rewrite Hn in HP. }
  apply existsb_exists in H as (x & Hx & E). apply String.eqb_eq in E as <-.
  assert (n = "mail/work" ∨ n = "mail/home" ∨ n = "user/alice") as Hcase.
  { clear Hb Hn. simpl in Hx. destruct Hx as [<-|[<-|[<-|[]]]]; auto. }
  assert (ascii_str n) as Ha .
  { assert (Forall (λ c, (byteZ c < 128)%Z) (String.list_ascii_of_string n)) as HF
      by (clear Hb Hn; destruct Hcase as [-> |[-> | ->]]; compute_dec).
    rewrite Forall_forall in HF. exact HF. }
  split; [by apply ascii_valid|]. apply ascii_lower_fits; [|done].
  intros r Hr. unfold toy_lower, inr. destruct (65 <=? r)%Z eqn:E1; destruct (r <=? 90)%Z eqn:E2; simpl; [lia|..];
    replace (r =? 570)%Z with false by lia; replace (r =? 574)%Z with false by lia; lia.
Qed.

Example C29_example : holds store1 m1 ∧ all_named m1 ∧ plain_names toy_lower m1 ∧
  (Search toy_lower (env_at 1 "") "mh" store1).2 = Ok (Some {[ "u2" := "mail/home" ]}) ∧
  (Search toy_lower (env_at 1 "") "m/o" store1).2 = Ok (Some {[ "u1" := "mail/work"; "u2" := "mail/home" ]}) ∧
  (Search toy_lower (env_at 1 "") "x/o" store1).2 = Ok (Some ∅).
Proof.
  split; [apply store1_holds|]. split; [apply m1_well|]. split; [apply m1_plain|].
  split; [compute_dec|]. split; compute_dec.
Qed.

(** An entry whose name ends in a byte that is not UTF-8 crashes the search for
    that byte; an entry called U+023A is not found by its own lower case. *)
Theorem C29_search_crashes_refuted : ∃ lower e q d m, holds d m ∧ well_named m ∧ fair e ∧
  (Search lower e q d).2 = Panic.
Proof.
  pose (d := after [BNew (env_at 10 "u1") (bytes_str [97; 255]%Z)]).
  exists toy_lower, (env_at 1 ""), (bytes_str [255]%Z), d, (content d).
  split; [|split; [|split; [done|compute_dec]]].
  - split; [|apply replay_fn_ok; compute_dec].
    split; [compute_dec|]. apply replay_fn_ok. compute_dec.
  - split; [apply named_b_ok|apply unique_b_ok]; vm_compute; reflexivity.
Qed.
Print Assumptions C29_search_crashes_refuted.

Theorem C29_search_misses_refuted : ∃ lower e q d m n, holds d m ∧ well_named m ∧ fair e ∧ valid_utf8 n ∧
  called m "u1" n ∧ name_matches lower q n ∧ (Search lower e q d).2 = Ok (Some ∅).
Proof.
  pose (n := encode [570]%Z). pose (d := after [BNew (env_at 10 "u1") n]).
  exists toy_lower, (env_at 1 ""), (encode [11365]%Z), d, (content d), n.
  split; [|split; [|split; [done|split; [|split; [|split; [|compute_dec]]]]]].
  - split; [|apply replay_fn_ok; compute_dec].
    split; [compute_dec|]. apply replay_fn_ok. compute_dec.
  - split; [apply named_b_ok|apply unique_b_ok]; vm_compute; reflexivity.
  - apply valid_utf8_runes. compute_dec.
  - exists (default ∅ (content d !! "u1")). split; compute_dec.
  - unfold name_matches.
    assert (split_on (Zbyte 47) (encode [11365]%Z) = [encode [11365]%Z]) as -> by compute_dec.
    assert (runes (encode [11365]%Z) = [11365]%Z) as -> by compute_dec.
    assert (runes n = [570]%Z) as -> by compute_dec.
    apply embeds_take; [by right|constructor].
Qed.
Print Assumptions C29_search_misses_refuted.

(** ** C30 *)

(** Exact if no entry has a label twice. *)
Theorem C30_label_search_exact_partial : ∀ e ls d m, holds d m → all_named m → fair e →
  (∀ u b, m !! u = Some b → NoDup (Labels b)) →
  ∃ d' r, SearchLabels e ls d = (d', Ok r) ∧ holds d' m ∧ vis (db_log d') = vis (db_log d) ∧
    exactly m (has_labels ls) r.
Proof. exact SearchLabels_spec. Qed.
Print Assumptions C30_label_search_exact_partial.

Example C30_example : holds store1 m1 ∧ all_named m1 ∧ Labels (default ∅ (m1 !! "u1")) = ["a"; "b"] ∧
  (∀ u b, m1 !! u = Some b → NoDup (Labels b)) ∧
  (SearchLabels (env_at 1 "") ["b"; "a"] store1).2 = Ok (Some {[ "u1" := "mail/work" ]}).
Proof.
  split; [apply store1_holds|]. split; [apply m1_well|]. split; [compute_dec|]. split; [|compute_dec].
  intros u b Hb.
  set (P := λ p : string * entry, bool_decide (NoDup (Labels p.2))).
  assert (P (u, b) = true) as H by (apply (all_entries_b P m1 u b); [vm_compute; reflexivity|exact Hb]).
  by apply bool_decide_eq_true in H.
Qed.

(** With a label repeated, an entry without label "b" is returned for "a b" and
    one that has both is not. *)
Definition labelled (v : string) : db := after [BNew (env_at 10 "u1") "x"; BSet (env_at 20 "") "u1" "labels" v].
Theorem C30_label_search_refuted : ∃ e d1 d2 m1 m2,
  fair e ∧ holds d1 m1 ∧ holds d2 m2 ∧ well_named m1 ∧ well_named m2 ∧
  (SearchLabels e ["a"; "b"] d1).2 = Ok (Some {[ "u1" := "x" ]}) ∧ ¬ has_labels ["a"; "b"] (default ∅ (m1 !! "u1")) ∧
  (SearchLabels e ["a"; "b"] d2).2 = Ok (Some ∅) ∧ has_labels ["a"; "b"] (default ∅ (m2 !! "u1")).
Proof.
  exists (env_at 1 ""), (labelled "a,a"), (labelled "b,a,a"), (content (labelled "a,a")), (content (labelled "b,a,a")).
  assert (∀ v, bool_decide (replay_fn ∅ (vis (db_log (labelled v))) = Some (content (labelled v))) = true → holds (labelled v) (content (labelled v))) as Hh.
  { intros v Hv. apply bool_decide_eq_true in Hv. split; [|by apply replay_fn_ok]. split; [unfold labelled; compute_dec|].
    apply replay_fn_ok. unfold labelled. vm_compute. reflexivity. }
  split; [done|]. split; [apply Hh; vm_compute; reflexivity|]. split; [apply Hh; vm_compute; reflexivity|].
  split; [split; [apply named_b_ok|apply unique_b_ok]; vm_compute; reflexivity|].
  split; [split; [apply named_b_ok|apply unique_b_ok]; vm_compute; reflexivity|].
  split; [compute_dec|]. split; [|split; [compute_dec|]].
  - intros H. specialize (H "b" ltac:(right; left)). revert H. match goal with |- ?x → _ => change (¬ x) end. compute_dec.
  - intros l Hl. apply elem_of_cons in Hl as [-> |Hl]; [compute_dec|].
    apply elem_of_list_singleton in Hl as ->. compute_dec.
Qed.
Print Assumptions C30_label_search_refuted.

(** ** C31 *)
Theorem C31_addlabel_appends : ∀ e u l d m b, holds d m → m !! u = Some b → l ≠ "" → lacks (Zbyte 44) l →
  ∃ d' b', AddLabel e u l d = (d', Ok tt) ∧ holds d' (<[u := b']> m) ∧
    Labels b' = Labels b ++ [l] ∧
    (∀ k, k ≠ "labels" → k ≠ "updated" → b' !! k = b !! k).
Proof.
  intros e u l d m b Hh Hb Hl Hc. destruct (AddLabel_spec e u l d m b Hh Hb) as (d' & b' & H1 & H2 & _ & H3 & H4).
  exists d', b'. auto.
Qed.
Print Assumptions C31_addlabel_appends.

(** Removing works for an entry's only label and for the first of two. *)
Theorem C31_removelabel_partial : ∀ e u d m b, holds d m → m !! u = Some b →
  length (Labels b) = 1%nat ∨ length (Labels b) = 2%nat → "" ∉ Labels b →
  ∃ d' b', RemoveLabel e u 0 d = (d', Ok tt) ∧ holds d' (<[u := b']> m) ∧
    Labels b' = drop 1 (Labels b) ∧
    (∀ k, k ≠ "labels" → k ≠ "updated" → b' !! k = b !! k).
Proof.
  intros e u d m b Hh Hb [Hl|Hl] Hne.
  - destruct (RemoveLabel_one e u d m b 0 Hh Hb Hl) as (d' & H1 & H2); [lia|].
    exists d', (delete "labels" b). split; [done|]. split; [done|]. split.
    + unfold Labels at 1, KeyLabels. rewrite lookup_delete. simpl. by rewrite drop_ge by lia.
    + intros k Hk _. by rewrite lookup_delete_ne.
  - assert (∃ x y, Labels b = [x; y]) as (x & y & HL).
    { destruct (Labels b) as [|x [|y [|]]]; try done. eauto. }
    destruct (RemoveLabel_many e u d m b 0 y Hh Hb) as (d' & b' & H1 & H2 & H3 & H4); rewrite ?HL; simpl; try lia; [done|].
    exists d', b'. split; [done|]. split; [done|]. split; [|done].
    rewrite (labels_single b' y H3); [done| |].
    + intros ->. apply Hne. rewrite HL. right; left.
    + eapply Labels_lacks. rewrite HL. right; left.
Qed.
Print Assumptions C31_removelabel_partial.

(** With three or more labels RemoveLabel always loses labels: only the last
    one is left, whichever was to be removed. *)
Theorem C31_removelabel_loses_labels_refuted : ∀ e u i d m b lst, holds d m → m !! u = Some b →
  (2 ≤ length (Labels b))%nat → (0 ≤ i < Z.of_nat (length (Labels b)))%Z → last (Labels b) = Some lst → lst ≠ "" →
  ∃ d' b', RemoveLabel e u i d = (d', Ok tt) ∧ holds d' (<[u := b']> m) ∧ Labels b' = [lst].
Proof.
  intros e u i d m b lst Hh Hb Hl Hi Hlast Hne.
  destruct (RemoveLabel_many e u d m b i lst Hh Hb Hl Hi Hlast) as (d' & b' & H1 & H2 & H3 & _).
  exists d', b'. split; [done|]. split; [done|]. apply labels_single; [done|done|].
  eapply Labels_lacks. apply last_Some in Hlast as [l ->]. apply elem_of_app. right; left.
Qed.
Print Assumptions C31_removelabel_loses_labels_refuted.

Definition store3 : db := after [BNew (env_at 10 "u1") "x"; BAddLabel (env_at 20 "") "u1" "a"; BAddLabel (env_at 30 "") "u1" "b"; BAddLabel (env_at 40 "") "u1" "c"].
Lemma store3_holds : holds store3 (content store3).
Proof.
  split; [|apply replay_fn_ok; compute_dec].
  split; [compute_dec|]. apply replay_fn_ok. compute_dec.
Qed.

(** For instance: removing the third of a, b, c keeps exactly that one. *)
Theorem C31_removed_label_stays_refuted : ∃ e u d m b, holds d m ∧ m !! u = Some b ∧ Labels b = ["a"; "b"; "c"] ∧
  ∃ d' b', RemoveLabel e u 2 d = (d', Ok tt) ∧ holds d' (<[u := b']> m) ∧ Labels b' = ["c"].
Proof.
  pose (b := default ∅ (content store3 !! "u1")).
  assert (content store3 !! "u1" = Some b) as Hb by compute_dec.
  assert (Labels b = ["a"; "b"; "c"]) as HL by compute_dec.
  exists (env_at 50 ""), "u1", store3, (content store3), b.
  split; [apply store3_holds|]. split; [done|]. split; [done|].
  apply (C31_removelabel_loses_labels_refuted (env_at 50 "") "u1" 2 store3 (content store3) b "c" store3_holds Hb);
    rewrite ?HL; [cbn; lia|cbn; lia|done|done].
Qed.
Print Assumptions C31_removed_label_stays_refuted.

(** Negative indices crash on all but one label. *)
Theorem C31_negative_index_crashes_refuted : ∀ e u i d m b, holds d m → m !! u = Some b → (i < 0)%Z →
  (2 ≤ length (Labels b))%nat → (RemoveLabel e u i d).2 = Panic.
Proof. exact RemoveLabel_negative. Qed.
Print Assumptions C31_negative_index_crashes_refuted.

(** A label with a comma (accepted by the label command) becomes two. *)
Theorem C31_comma_label_refuted : ∃ e u l d m b, holds d m ∧ m !! u = Some b ∧ l ≠ "" ∧
  ∃ d' b', AddLabel e u l d = (d', Ok tt) ∧ holds d' (<[u := b']> m) ∧ Labels b' = Labels b ++ ["x"; "y"] ∧ l ≠ "x" ∧ l ≠ "y".
Proof.
  pose (b := default ∅ (content store3 !! "u1")).
  assert (content store3 !! "u1" = Some b) as Hb by compute_dec.
  exists (env_at 50 ""), "u1", "x,y", store3, (content store3), b.
  split; [apply store3_holds|]. split; [done|]. split; [done|].
  pose (d' := (AddLabel (env_at 50 "") "u1" "x,y" store3).1).
  exists d', (default ∅ (content d' !! "u1")). split; [compute_dec|]. split; [|split; [compute_dec|split; discriminate]].
  split; [split; [compute_dec|]; apply replay_fn_ok; compute_dec|].
  apply replay_fn_ok. compute_dec.
Qed.
Print Assumptions C31_comma_label_refuted.

Example C31_example : holds store1 m1 ∧ Labels (default ∅ (m1 !! "u1")) = ["a"; "b"] ∧ lacks (Zbyte 44) "c" ∧
  (2 ≤ length (Labels (default ∅ (m1 !! "u1"))))%nat.
Proof. split; [apply store1_holds|]. split; [compute_dec|]. split; [by repeat constructor|compute_dec]. Qed.

(** ** C32 *)

(** The map returned names exactly the shared names; what is missing is the
    renaming. *)
Theorem C32_reports_duplicates_partial : ∀ e d m d' r, holds d m → fair e → RenameDuplicates e d = (d', Ok r) →
  ∀ n, is_Some (r !! n) ↔ ∃ u1 u2, u1 ≠ u2 ∧ called m u1 n ∧ called m u2 n.
Proof. exact RenameDuplicates_reports. Qed.
Print Assumptions C32_reports_duplicates_partial.

(** No entry is ever renamed: only updated stamps change (Set refuses the key
    "name" and the refusal is ignored). *)
Theorem C32_nothing_renamed_refuted : ∀ e d m, holds d m → all_named m → fair e →
  ∃ d' r m', RenameDuplicates e d = (d', Ok r) ∧ holds d' m' ∧ same_but_stamps m m'.
Proof. exact RenameDuplicates_spec. Qed.
Print Assumptions C32_nothing_renamed_refuted.

Definition dup_db : db := mk_db 0 None (slice_of (forkA ++ drop 2 forkB)) 0.
Example C32_example : holds dup_db (content dup_db) ∧ all_named (content dup_db) ∧ ¬ names_unique (content dup_db) ∧
  (RenameDuplicates (env_at 50 "") dup_db).2 = Ok {[ "bank" := "bank1" ]}.
Proof.
  split; [split; [split; [compute_dec|constructor]|apply replay_fn_ok; compute_dec]|].
  split; [apply named_b_ok; vm_compute; reflexivity|]. split; [|compute_dec].
  intros H. specialize (H "v" "w" "bank"). discriminate H.
  - exists {[ "name" := "bank" ]}. split; compute_dec.
  - exists {[ "name" := "bank"; "pass" := "x" ]}. split; compute_dec.
Qed.

(** ** C33 *)
Theorem C33_stamp_after_set : ∀ e i u k v d m b, holds d m → m !! u = Some b → ¬ protected_key k → in_int64 (e_now e i) →
  ∃ d' m' b', Set_key e i u k v d = (d', Ok tt) ∧ holds d' m' ∧ m' !! u = Some b' ∧ Updated b' = Ok (Some (e_now e i)).
Proof.
  intros e i u k v d m b Hh Hb Hk Hz.
  destruct (C27_set_changes_one_key e i u k v d m b Hh Hb Hk) as (d' & m' & b' & H1 & H2 & H3 & _ & H4 & _).
  exists d', m', b'. eauto using Updated_spec.
Qed.
Print Assumptions C33_stamp_after_set.

Theorem C33_stamp_after_deletekey : ∀ e u k d m b, holds d m → m !! u = Some b → k ≠ "name" → k ≠ "updated" → in_int64 (e_now e 0) →
  ∃ d' m' b', DeleteKey_key e u k d = (d', Ok tt) ∧ holds d' m' ∧ m' !! u = Some b' ∧ Updated b' = Ok (Some (e_now e 0)).
Proof.
  intros e u k d m b Hh Hb Hk1 Hk2 Hz.
  destruct (C27_deletekey_changes_one_key e u k d m b Hh Hb Hk1 Hk2) as (d' & m' & b' & H1 & H2 & H3 & _ & H4 & _).
  exists d', m', b'. eauto using Updated_spec.
Qed.
Print Assumptions C33_stamp_after_deletekey.

Theorem C33_stamp_after_new : ∀ e n d m, holds d m → all_named m → fair e → unused d (e_uuid e) →
  (∀ u, ¬ called m u n) → in_int64 (e_now e 1) →
  ∃ d' b, New e 0 n d = (d', Ok (e_uuid e)) ∧ holds d' (<[e_uuid e := b]> m) ∧ Updated b = Ok (Some (e_now e 1)).
Proof.
  intros e n d m Hh Ha Hf Hun Hno Hz.
  destruct (C23_new_creates e n d m Hh Ha Hf Hun Hno) as (d' & b & H1 & H2 & _ & _ & H3 & _).
  exists d', b. eauto using Updated_spec.
Qed.
Print Assumptions C33_stamp_after_new.

Theorem C33_stamp_after_rename : ∀ e n d m u b, holds d m → all_named m → fair e → m !! u = Some b →
  (∀ x, ¬ called m x n) → in_int64 (e_now e 0) →
  ∃ d' m' b', Rename e u n d = (d', Ok tt) ∧ holds d' m' ∧ m' !! u = Some b' ∧ Updated b' = Ok (Some (e_now e 0)).
Proof.
  intros e n d m u b Hh Ha Hf Hb Hno Hz.
  destruct (C23_rename_renames e n d m u b Hh Ha Hf Hb Hno) as (d' & H1 & H2).
  eexists d', _, _. split; [done|]. split; [done|]. split; [apply lookup_insert|].
  apply Updated_spec; [|done]. by rewrite lookup_insert_ne, lookup_insert.
Qed.
Print Assumptions C33_stamp_after_rename.

Example C33_example : in_int64 1700000000123456789 ∧ in_int64 (-5) ∧
  Updated {[ "updated" := FormatInt 1700000000123456789 ]} = Ok (Some 1700000000123456789%Z).
Proof. split; [unfold in_int64; lia|]. split; [unfold in_int64; lia|compute_dec]. Qed.

(** ** C34 *)

(** findOne's answer: only the sole match or the entry of exactly that name; it
    writes nothing. *)
Theorem C34_findone_partial : ∀ lower ord e q d m,
  holds d m → all_named m → plain_names lower m → fair e → fair_results ord →
  ∃ d' u, findOne lower ord e q d = (d', Ok u) ∧ holds d' m ∧ vis (db_log d') = vis (db_log d) ∧
    (u ≠ "" → ∃ n, called m u n ∧ name_matches lower q n ∧
       (n = q ∨ ∀ u' n', called m u' n' → name_matches lower q n' → u' = u)) ∧
    (∀ u0, called m u0 q → names_unique m → u = u0) ∧
    (∀ u0 n0, called m u0 n0 → name_matches lower q n0 →
       (∀ u' n', called m u' n' → name_matches lower q n' → u' = u0) → u = u0).
Proof. exact findOne_spec. Qed.
Print Assumptions C34_findone_partial.

Theorem C34_order_irrelevant_partial : ∀ lower ord1 ord2 e1 e2 q d m,
  holds d m → well_named m → plain_names lower m →
  fair e1 → fair e2 → fair_results ord1 → fair_results ord2 → m !! "" = None →
  (findOne lower ord1 e1 q d).2 = (findOne lower ord2 e2 q d).2.
Proof. exact findOne_det. Qed.
Print Assumptions C34_order_irrelevant_partial.

Example C34_example : holds store1 m1 ∧ well_named m1 ∧ plain_names toy_lower m1 ∧ m1 !! "" = None ∧
  fair_results map_to_list ∧
  (findOne toy_lower map_to_list (env_at 1 "") "home" store1).2 = Ok "u2" ∧
  (findOne toy_lower map_to_list (env_at 1 "") "mail" store1).2 = Ok "".
Proof.
  split; [apply store1_holds|]. split; [apply m1_well|]. split; [apply m1_plain|]. split; [compute_dec|].
  split; [intros m; reflexivity|]. split; compute_dec.
Qed.

(** Duplicate names (C24) make the choice depend on the iteration order. *)
Theorem C34_duplicates_ambiguous_refuted : ∃ lower ord1 ord2 e q d m,
  holds d m ∧ all_named m ∧ fair e ∧ fair_results ord1 ∧ fair_results ord2 ∧
  (findOne lower ord1 e q d).2 = Ok "v" ∧ (findOne lower ord2 e q d).2 = Ok "w".
Proof.
  assert (∀ b : bool, (findOne toy_lower (if b then map_to_list else λ m, reverse (map_to_list m)) (env_at 1 "") "bank" dup_db).2 = Ok "v" ∨
    (findOne toy_lower (if b then map_to_list else λ m, reverse (map_to_list m)) (env_at 1 "") "bank" dup_db).2 = Ok "w") as H.
  { intros []; [left|right]; compute_dec. }
  exists toy_lower, map_to_list, (λ m, reverse (map_to_list m)), (env_at 1 ""), "bank", dup_db, (content dup_db).
  split; [split; [split; [compute_dec|constructor]|apply replay_fn_ok; compute_dec]|].
  split; [apply named_b_ok; vm_compute; reflexivity|]. split; [done|].
  split; [intros m; reflexivity|]. split; [intros m; apply reverse_Permutation|]. split; compute_dec.
Qed.
Print Assumptions C34_duplicates_ambiguous_refuted.

(** ** C35 *)
Theorem C35_newsync_fresh_name : ∀ e kind d m, holds d m → all_named m → fair e → unused d (e_uuid e) →
  ∃ k d', NewSync (S (size m)) e kind d = Some (d', Ok (e_uuid e)) ∧
    (∀ i, (i < k)%nat → ∃ u, called m u ("sync/" +:+ kind +:+ ones i)) ∧
    (∀ u, ¬ called m u ("sync/" +:+ kind +:+ ones k)) ∧
    holds d' (<[e_uuid e := new_entry e ("sync/" +:+ kind +:+ ones k)]> m).
Proof. exact NewSync_spec. Qed.
Print Assumptions C35_newsync_fresh_name.

Example C35_example :
  let d := after [BNewSync (env_at 1 "s1") "scp"; BNewSync (env_at 9 "s2") "scp"; BNewSync (env_at 19 "s3") "scp"] in
  (λ b : entry, b !! "name") <$> content d !! "s3" = Some (Some "sync/scp11") ∧ holds d (content d) ∧
  all_named (content d).
Proof.
  split; [compute_dec|]. split.
  - split; [|apply replay_fn_ok; compute_dec].
    split; [compute_dec|]. apply replay_fn_ok. compute_dec.
  - apply named_b_ok. vm_compute. reflexivity.
Qed.

(** ** C36 *)
Theorem C36_users_exact : ∀ e d m, holds d m → all_named m → fair e →
  ∃ d' r, Users e d = (d', Ok r) ∧ holds d' m ∧ vis (db_log d') = vis (db_log d) ∧
    exactly m (λ b, ∃ x, b !! "name" = Some ("user/" +:+ x)) r.
Proof. exact Users_spec. Qed.
Print Assumptions C36_users_exact.

Theorem C36_username_recovered : ∀ x, SplitUsername ("user/" +:+ x) = Ok x.
Proof. exact SplitUsername_user. Qed.
Print Assumptions C36_username_recovered.

(** Names without "user/" anywhere give no username; splitting never crashes. *)
Theorem C36_other_names_partial : ∀ n, (∀ a b, n ≠ a +:+ "user/" +:+ b) → SplitUsername n = Ok "".
Proof.
  intros n H. unfold SplitUsername. destruct (str_index n userPrefix) as [i|] eqn:E; [|done].
  apply str_index_some in E as (a & b & -> & _). by destruct (H a b).
Qed.
Print Assumptions C36_other_names_partial.

Theorem C36_split_no_crash : ∀ n, ∃ x, SplitUsername n = Ok x.
Proof. exact SplitUsername_no_panic. Qed.
Print Assumptions C36_split_no_crash.

(** "From exactly those names" is false: an ordinary entry that merely contains
    "user/" is split too.  Deleting the entry work/user/alice therefore goes
    through the user-removal branch (C54). *)
Theorem C36_split_inner_refuted : ∃ n, IsUserEntry n = false ∧ SplitUsername n = Ok "alice".
Proof. exists "work/user/alice". split; reflexivity. Qed.
Print Assumptions C36_split_inner_refuted.

Example C36_example : holds store1 m1 ∧ all_named m1 ∧
  (Users (env_at 1 "") store1).2 = Ok (Some {[ "u3" := "user/alice" ]}).
Proof. split; [apply store1_holds|]. split; [apply m1_well|compute_dec]. Qed.
