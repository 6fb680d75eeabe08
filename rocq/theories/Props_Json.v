(** Properties C49 and C50: saving a store and loading it again. *)
From Verif Require Import Proof_Json Proof_Json2 Proof_Json3 Proof_JsonText.
From Coq Require Import Lia.
From stdpp Require Import options.
Import Model_GoStr.

(** ** C49 *)

Theorem C49_saves : ∀ d, db_txpoint d = 0%nat → ∃ b, Save d = Ok b.
Proof. intros d H. unfold Save, save_guard. rewrite H. eexists. done. Qed.
Print Assumptions C49_saves.

Theorem C49_round_trip : ∀ d b,
  db_utf8 d → db_fits d → Save d = Ok b →
  ∃ d', New b = Ok (Some d') ∧ db_version d' = db_version d ∧ snap_of d' = snap_of d ∧
    vis (db_log d') = vis (db_log d) ∧ db_txpoint d' = 0%nat.
Proof.
  intros d b Hu Hf Hs. exists (loaded d). destruct (loaded_same d Hu) as [H1 H2].
  split; [by apply New_Save|]. done.
Qed.
Print Assumptions C49_round_trip.

(** The merge code reads the same bytes with NewLog (merging.go:40). *)
Theorem C49_log_round_trip : ∀ d b,
  db_utf8 d → db_fits d → Save d = Ok b →
  ∃ l, NewLog b = Ok l ∧ vis l = vis (db_log d).
Proof.
  intros d b Hu Hf Hs. destruct (loaded_same d Hu) as [_ H2]. exists (db_log (loaded d)).
  split; [|done]. apply New_NewLog. by apply New_Save.
Qed.
Print Assumptions C49_log_round_trip.

(** On any input the two readers agree. *)
Theorem C49_readers_agree : ∀ b d, New b = Ok (Some d) → NewLog b = Ok (db_log d).
Proof. exact New_NewLog. Qed.
Print Assumptions C49_readers_agree.

(** Saving what was loaded gives the same bytes. *)
Theorem C49_save_again : ∀ d b d',
  db_utf8 d → db_fits d → Save d = Ok b → New b = Ok (Some d') → Save d' = Ok b.
Proof.
  intros d b d' Hu Hf Hs Hn. pose proof (New_Save d b Hf Hs) as H. rewrite H in Hn. apply Ok_eq in Hn. apply (inj Some) in Hn as <-.
  destruct (loaded_same d Hu) as [H1 H2]. rewrite <-Hs. apply Save_same; try done. by apply Save_txpoint in Hs.
Qed.
Print Assumptions C49_save_again.

(** Two stores with the same saved form have the same content. *)
Theorem C49_injective : ∀ d1 d2 b,
  db_utf8 d1 → db_utf8 d2 → db_fits d1 → db_fits d2 → Save d1 = Ok b → Save d2 = Ok b →
  db_version d1 = db_version d2 ∧ snap_of d1 = snap_of d2 ∧ vis (db_log d1) = vis (db_log d2).
Proof.
  intros d1 d2 b U1 U2 F1 F2 S1 S2. pose proof (New_Save _ _ F1 S1) as N1. pose proof (New_Save _ _ F2 S2) as N2. rewrite N1 in N2.
  apply Ok_eq in N2. apply (inj Some) in N2 as HL. destruct (loaded_same d1 U1) as [A1 B1]. destruct (loaded_same d2 U2) as [A2 B2].
  split; [|split].
  - change (db_version (loaded d1) = db_version (loaded d2)). rewrite HL. done.
  - rewrite <-A1, <-A2. rewrite HL. done.
  - rewrite <-B1, <-B2. rewrite HL. done.
Qed.
Print Assumptions C49_injective.

(** A file that contains the JSON value null passes for a store: New returns a
    nil pointer and no error, and NewLog crashes. *)
Theorem C49_null_refuted :
  New (str_bytes "null") = Ok None ∧ NewLog (str_bytes "null") = Panic.
Proof. split; vm_compute; reflexivity. Qed.
Print Assumptions C49_null_refuted.

(** Strings that another writer escaped, completely or with surrogate pairs, are
    read as the same text. *)
Theorem C49_escapes : ∀ rs t, Forall (λ r, valid_rune r = true) rs →
  parse_str (String (Zbyte 34) (escaped rs +:+ String (Zbyte 34) t)) = Some (encode rs, t).
Proof. exact parse_str_escaped. Qed.
Print Assumptions C49_escapes.
Example C49_escapes_example : escaped [128274; 97]%Z = "\ud83d\udd12\u0061" ∧
  parse_str (String (Zbyte 34) ("\ud83d\udd12\u0061" +:+ String (Zbyte 34) ",")) = Some (encode [128274; 97]%Z, ",").
Proof. split; vm_compute; reflexivity. Qed.
(** Half a pair alone is read as U+FFFD. *)
Theorem C49_lone_surrogate : ∀ f u t, (55296 ≤ u ≤ 57343)%Z → next_u t = None →
  parse_chars (S f) (unit_escape u +:+ t) = onto (encode_rune RuneError) (parse_chars f t).
Proof. exact parse_lone. Qed.
Print Assumptions C49_lone_surrogate.

Definition C49_store : db :=
  mk_db 1 (Some {["u1" := {["name" := "mail"]}]}) (mk_slice
    [mk_tx 100 "add" "u1" "" ""; mk_tx (-200) "set" "u1" "name" "mail";
     mk_tx 300 "set" "u1" "pass" ("<a&""b\>" +:+ encode [8232; 233; 9; 1; 128274]%Z)] []) 0.
Example C49_example :
  ∃ b, Save C49_store = Ok b ∧ db_fits C49_store ∧ Forall tx_utf8 (vis (db_log C49_store)) ∧
  NewLog b = Ok (mk_slice (vis (db_log C49_store)) (replicate 1 tx_zero)).
Proof.
  eexists. split; [reflexivity|]. split; [split; [done|repeat constructor; unfold in_int64; cbn; lia]|].
  split; [apply fix_txs_utf8; vm_compute; reflexivity|]. vm_compute. reflexivity.
Qed.

(** ** C50 *)

(** What is missing: every byte that is not part of well-formed UTF-8 comes back
    as the three bytes of U+FFFD. *)
Theorem C50_log_partial : ∀ d b,
  db_fits d → Save d = Ok b →
  ∃ d', New b = Ok (Some d') ∧ vis (db_log d') = fix_tx <$> vis (db_log d).
Proof.
  intros d b Hf Hs. exists (loaded d). split; [by apply New_Save|]. apply vis_load_log.
Qed.
Print Assumptions C50_log_partial.

Theorem C50_preserved_iff_partial : ∀ d b d',
  db_fits d → Save d = Ok b → New b = Ok (Some d') →
  (vis (db_log d') = vis (db_log d) ↔ Forall tx_utf8 (vis (db_log d))).
Proof.
  intros d b d' Hf Hs Hn. rewrite (New_Save d b Hf Hs) in Hn. apply Ok_eq in Hn. apply (inj Some) in Hn as <-.
  change (vis (load_log (vis (db_log d))) = vis (db_log d) ↔ Forall tx_utf8 (vis (db_log d))). rewrite vis_load_log. apply fix_txs_utf8.
Qed.
Print Assumptions C50_preserved_iff_partial.

(** After one round the strings are valid, and further rounds change nothing. *)
Theorem C50_once_partial : ∀ d b d',
  db_fits d → Save d = Ok b → New b = Ok (Some d') → Forall tx_utf8 (vis (db_log d')).
Proof.
  intros d b d' Hf Hs Hn. rewrite (New_Save d b Hf Hs) in Hn. apply Ok_eq in Hn. apply (inj Some) in Hn as <-.
  change (Forall tx_utf8 (vis (load_log (vis (db_log d))))). rewrite vis_load_log. apply Forall_fmap, Forall_forall. intros t _.
  apply fix_tx_utf8. unfold fix_tx. cbn [tx_time tx_kind tx_uuid tx_key tx_value]. by rewrite !fix_idem.
Qed.
Print Assumptions C50_once_partial.

(** Whatever bytes are read: the store they give is text with numbers that fit, so saved
    and loaded again it is the same. *)
Theorem C50_any : ∀ b d, New b = Ok (Some d) → db_utf8 d ∧ db_fits d ∧ db_txpoint d = 0%nat.
Proof. exact New_text. Qed.
Print Assumptions C50_any.
Theorem C50_any_again : ∀ b d, New b = Ok (Some d) →
  ∃ b' d', Save d = Ok b' ∧ New b' = Ok (Some d') ∧ db_version d' = db_version d ∧ snap_of d' = snap_of d ∧ vis (db_log d') = vis (db_log d).
Proof.
  intros b d H. apply New_text in H as (Hu & Hf & Ht). destruct (C49_saves d Ht) as [b' Hs].
  destruct (C49_round_trip d b' Hu Hf Hs) as (d' & H1 & H2 & H3 & H4 & _). by exists b', d'.
Qed.
Print Assumptions C50_any_again.
Theorem C50_any_log : ∀ b l, NewLog b = Ok l → Forall (λ t, tx_utf8 t ∧ in_int64 (tx_time t)) (vis l).
Proof. exact NewLog_fine. Qed.
Print Assumptions C50_any_log.
Definition raw_file : bytes := str_bytes ("{""log"":[{""uuid"":""a" +:+ String (Zbyte 233) "" +:+ """}]}").
Example C50_any_example : ∃ d, New raw_file = Ok (Some d) ∧ vis (db_log d) = [mk_tx 0 "" (encode [97; 65533]%Z) "" ""].
Proof. eexists. split; [vm_compute; reflexivity|vm_compute; reflexivity]. Qed.

(** A password with the Latin-1 e-acute (byte 233) is saved without an error and
    comes back as another one. *)
Definition latin1 (n : Z) : db :=
  mk_db 1 None (mk_slice [mk_tx 1 "add" "u1" "" ""; mk_tx 2 "set" "u1" "pass" (String (Zbyte n) "t")] []) 0.
Theorem C50_latin1_refuted :
  ∃ b d', Save (latin1 233) = Ok b ∧ New b = Ok (Some d') ∧
    vis (db_log d') = [mk_tx 1 "add" "u1" "" ""; mk_tx 2 "set" "u1" "pass" (encode [65533; 116]%Z)] ∧
    vis (db_log d') ≠ vis (db_log (latin1 233)).
Proof.
  do 2 eexists. split; [reflexivity|].
  split; [apply (New_Save (latin1 233)); [split; [done|repeat constructor; unfold in_int64; cbn; lia]|reflexivity]|].
  split; [vm_compute; reflexivity|]. intros H. vm_compute in H. discriminate H.
Qed.
Print Assumptions C50_latin1_refuted.

(** Two stores with different passwords have the same file. *)
Theorem C50_collision_refuted :
  Save (latin1 233) = Save (latin1 232) ∧ vis (db_log (latin1 233)) ≠ vis (db_log (latin1 232)).
Proof. split; [vm_compute; reflexivity|]. intros H. vm_compute in H. discriminate H. Qed.
Print Assumptions C50_collision_refuted.

(** Two fields of one entry can collapse into one: the snapshot loses a value. *)
Definition two_fields : entry := {[String (Zbyte 233) "" := "a"; String (Zbyte 232) "" := "b"]}.
Theorem C50_lost_field_refuted :
  ∃ d b d' e, Save d = Ok b ∧ New b = Ok (Some d') ∧ db_fits d ∧
    snap_of d !! "u1" = Some two_fields ∧ size two_fields = 2%nat ∧
    snap_of d' !! "u1" = Some e ∧ size e = 1%nat.
Proof.
  set (d := mk_db 1 (Some {["u1" := two_fields]}) slice_nil 0).
  assert (db_fits d) as Hf by (split; [done|constructor]).
  destruct (C49_saves d eq_refl) as [b Hs]. exists d, b, (loaded d), (load_entry two_fields).
  split; [done|]. split; [by apply New_Save|]. split; [done|]. split; [apply lookup_singleton|].
  split; [vm_compute; reflexivity|]. split; [|vm_compute; reflexivity]. compute_dec.
Qed.
Print Assumptions C50_lost_field_refuted.

Example C50_example : ¬ tx_utf8 (mk_tx 2 "set" "u1" "pass" (String (Zbyte 233) "t")) ∧ tx_utf8 (mk_tx 2 "set" "u1" "pass" (encode [233; 116]%Z)).
Proof.
  split; [|apply fix_tx_utf8; vm_compute; reflexivity]. intros H. apply fix_tx_utf8 in H. vm_compute in H. discriminate H.
Qed.
