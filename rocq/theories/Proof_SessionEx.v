(** Concrete sessions for the examples of Props_Session.v. *)
From Verif Require Import Proof_TxLog Proof_GoStr Proof_Utf8 Proof_Blobs Proof_Crypt7.
From Verif Require Export Proof_Session6.
From Coq Require Import Lia.
From stdpp Require Import options.
Import Model_GoStr.
#[local] Open Scope nat_scope.

(** A single-user store with one entry. *)
Definition se_log : list tx :=
  [mk_tx 10 "add" "u1" "" ""; mk_tx 11 "setk" "u1" "name" "mail"; mk_tx 12 "setk" "u1" "pass" "hunter2"].
Definition se_db : db := mk_db 0 None (mk_slice se_log []) 0.
Definition se_mail : entry := <["pass" := "hunter2"]> (<["name" := "mail"]> ∅).
Definition se_m : snapshot := {["u1" := se_mail]}.
Definition se_salt : bytes := replicate 32 (Zbyte 115).
Definition se_pass : string := "correct horse".
Definition se_single : session :=
  mk_session false false 3 se_db "" se_pass (key_of toy (str_bytes se_pass) se_salt) se_salt [] [].

Ltac utf8_tx := split; [utf8_lit|split; [utf8_lit|split; first [apply utf8_hex|utf8_lit]]].
Lemma se_good : good se_db se_m.
Proof.
  split; [split; [split; [compute_dec|apply replay_fn_ok; compute_dec]|apply replay_fn_ok; compute_dec]|]. split; [done|]. split; [|split; [|done]].
  - repeat (constructor; [utf8_tx|]). constructor.
  - repeat (constructor; [done|]). constructor.
Qed.
Lemma one_entry u b : se_m !! u = Some b → u = "u1" ∧ b = se_mail.
Proof. unfold se_m. intros H. by apply lookup_singleton_Some in H as [<- <-]. Qed.
Lemma se_named : well_named se_m.
Proof.
  split.
  - intros u b H. apply one_entry in H as [-> ->]. by exists "mail".
  - intros u1 u2 n (b1 & H1 & _) (b2 & H2 & _). apply one_entry in H1 as [-> _], H2 as [-> _]. done.
Qed.
Lemma se_no_users y : ¬ is_user se_m y.
Proof. intros (u & b & H & Hn). apply one_entry in H as [-> ->]. vm_compute in Hn. done. Qed.
Lemma se_single_ok : single_session toy se_single se_pass.
Proof. repeat split; done. Qed.

(** A store with two users. *)
Definition se_iv : bytes := map (λ n, Zbyte (Z.of_nat n + 60)) (seq 0 40).
Definition se_master : bytes := replicate 80 (Zbyte 77).
Definition se_salt2 : bytes := replicate 32 (Zbyte 116).
Definition se_pass2 : string := "staple".
Definition se_wrap (pass : string) (salt : bytes) : bytes := (ok_or ([], []) (EncryptMasterKey toy 1 (key_of toy (str_bytes pass) salt) se_master (Some se_iv))).1.
Definition se_user (x : string) (pass : string) (salt : bytes) : entry :=
  with_row salt se_iv (se_wrap pass salt) (<["name" := "user/" +:+ x]> ∅).
Definition se_user_log (u x : string) (pass : string) (salt : bytes) : list tx :=
  [mk_tx 20 "add" u "" ""; mk_tx 21 "setk" u "name" ("user/" +:+ x); mk_tx 22 "setk" u "salt" (hex_encode salt);
   mk_tx 23 "setk" u "iv" (hex_encode se_iv); mk_tx 24 "setk" u "mkey" (hex_encode (se_wrap pass salt))].
Definition se_log2 : list tx := se_log ++ se_user_log "u2" "alice" se_pass se_salt ++ se_user_log "u3" "bob" se_pass2 se_salt2.
Definition se_db2 : db := mk_db 0 None (mk_slice se_log2 []) 0.
Definition se_m2 : snapshot :=
  <["u3" := se_user "bob" se_pass2 se_salt2]> (<["u2" := se_user "alice" se_pass se_salt]> se_m).
Definition se_multi : session :=
  mk_session false false 13 se_db2 "alice" se_pass (key_of toy (str_bytes se_pass) se_salt) se_salt se_master se_iv.

Lemma three_entries u b : se_m2 !! u = Some b →
  (u = "u3" ∧ b = se_user "bob" se_pass2 se_salt2) ∨ (u = "u2" ∧ b = se_user "alice" se_pass se_salt) ∨ (u = "u1" ∧ b = se_mail).
Proof.
  unfold se_m2. intros H. apply lookup_insert_Some in H as [[<- <-]|[_ H]]; [by left|]. apply lookup_insert_Some in H as [[<- <-]|[_ H]]; [by right; left|].
  right. right. by apply one_entry.
Qed.
Lemma se_user_name x pass salt : se_user x pass salt !! "name" = Some ("user/" +:+ x).
Proof. unfold se_user. rewrite with_row_name. apply lookup_insert. Qed.
Lemma se_row u x pass salt : se_m2 !! u = Some (se_user x pass salt) → has_row se_m2 x u salt se_iv (se_wrap pass salt).
Proof.
  intros H. exists (se_user x pass salt). split; [done|]. split; [apply se_user_name|]. unfold se_user, with_row.
  split; [|split]; [| |apply lookup_insert].
  - rewrite !lookup_insert_ne by done. apply lookup_insert.
  - rewrite lookup_insert_ne by done. apply lookup_insert.
Qed.
Lemma se_wrap_ok pass salt : length salt = 32 → EncryptMasterKey toy 1 (key_of toy (str_bytes pass) salt) se_master (Some se_iv) = Ok (se_wrap pass salt, se_iv) ∧
  length (se_wrap pass salt) = 80.
Proof.
  intros Hs. destruct (EncryptMasterKey_ok toy (key_of toy (str_bytes pass) salt) se_master se_iv) as (mkey & E & L & _); [apply toy_ok|apply (scrypt_len _ toy_ok)|done|done|].
  unfold se_wrap. rewrite E. done.
Qed.
Lemma se_u3 : se_m2 !! "u3" = Some (se_user "bob" se_pass2 se_salt2). Proof. unfold se_m2. apply lookup_insert. Qed.
Lemma se_u2 : se_m2 !! "u2" = Some (se_user "alice" se_pass se_salt). Proof. unfold se_m2. rewrite lookup_insert_ne by done. apply lookup_insert. Qed.
Lemma se_u1 : se_m2 !! "u1" = Some se_mail. Proof. unfold se_m2. rewrite !lookup_insert_ne by done. apply lookup_singleton. Qed.
Lemma se_called u x : called se_m2 u ("user/" +:+ x) →
  (u = "u3" ∧ x = "bob") ∨ (u = "u2" ∧ x = "alice").
Proof.
  intros (b & Hb & Hn). apply three_entries in Hb as [[-> ->]|[[-> ->]|[-> ->]]].
  - rewrite se_user_name in Hn. injection Hn as <-. by left.
  - rewrite se_user_name in Hn. injection Hn as <-. by right.
  - vm_compute in Hn. done.
Qed.
Lemma se_users x : is_user se_m2 x ↔ x ∈ ["alice"; "bob"].
Proof.
  split.
  - intros (u & H). apply se_called in H as [[_ ->]|[_ ->]]; set_solver.
  - intros [->|[->|H%elem_of_nil]%elem_of_cons]%elem_of_cons; [exists "u2"; eexists; split; [apply se_u2|apply se_user_name]|exists "u3"; eexists; split; [apply se_u3|apply se_user_name]|done].
Qed.
Lemma se_named2 : well_named se_m2.
Proof.
  split.
  - intros u b H. apply three_entries in H as [[-> ->]|[[-> ->]|[-> ->]]]; [eexists; apply se_user_name..|]. by exists "mail".
  - intros u1 u2 n (b1 & H1 & N1) (b2 & H2 & N2).
    apply three_entries in H1 as [[-> ->]|[[-> ->]|[-> ->]]], H2 as [[-> ->]|[[-> ->]|[-> ->]]]; try done;
      rewrite ?se_user_name in N1; rewrite ?se_user_name in N2; try (vm_compute in N1); try (vm_compute in N2); congruence.
Qed.
Lemma se_table : table_ok toy se_m2.
Proof.
  split; [|split; [|split]].
  - intros u x H. apply se_called in H as [[-> ->]|[-> ->]]; (split; [done|]; split; [done|]).
    + exists se_salt2, se_iv, (se_wrap se_pass2 se_salt2). split; [apply se_row, se_u3|]. split; [done|]. split; [done|]. by apply se_wrap_ok.
    + exists se_salt, se_iv, (se_wrap se_pass se_salt). split; [apply se_row, se_u2|]. split; [done|]. split; [done|]. by apply se_wrap_ok.
  - intros x y Hx Hy. apply se_users in Hx, Hy.
    apply elem_of_cons in Hx as [->|[->|H%elem_of_nil]%elem_of_cons], Hy as [->|[->|H'%elem_of_nil]%elem_of_cons]; try done; intros E; exfalso; vm_compute in E; done.
  - exists "alice". apply se_users. set_solver.
  - intros l Hnd Hin. assert (length l ≤ length ["alice"; "bob"]) as H; [|cbn [length] in H; lia].
    apply submseteq_length, NoDup_submseteq; [done|]. intros x Hx. apply se_users. by apply Hin.
Qed.
Lemma se_good2 : good se_db2 se_m2.
Proof.
  split; [split; [split; [compute_dec|apply replay_fn_ok; compute_dec]|apply replay_fn_ok; compute_dec]|]. split; [done|]. split; [|split; [|done]].
  - cbn [se_db2 db_log vis]. unfold se_log2, se_log, se_user_log. cbn [app]. repeat (constructor; [utf8_tx|]). constructor.
  - cbn [se_db2 db_log vis]. unfold se_log2, se_log, se_user_log. cbn [app]. repeat (constructor; [done|]). constructor.
Qed.
Lemma se_serves : serves toy se_multi se_m2.
Proof. split; [apply se_good2|]. split; [apply se_named2|]. split; [done|]. split; [done|]. split; [right; apply (scrypt_len _ toy_ok)|]. split; [apply se_table|apply se_named2]. Qed.
Lemma se_alice : unlocks toy se_m2 se_master "alice" se_pass.
Proof. split; [done|]. exists "u2", se_salt, se_iv, (se_wrap se_pass se_salt). split; [apply se_row, se_u2|by apply se_wrap_ok]. Qed.
Lemma se_bob : unlocks toy se_m2 se_master "bob" se_pass2.
Proof. split; [done|]. exists "u3", se_salt2, se_iv, (se_wrap se_pass2 se_salt2). split; [apply se_row, se_u3|by apply se_wrap_ok]. Qed.

(** Surroundings. *)
Definition se_env : env := mk_env (λ i, 100 + Z.of_nat (i mod 10))%Z (λ _, 0) "u9" (λ _ m, map_to_list m).
Lemma se_fair : fair se_env. Proof. intros j m. reflexivity. Qed.
Lemma se_clock : clock_ok se_env.
Proof. intros i. unfold in_int64. cbn [e_now se_env]. pose proof (Nat.mod_upper_bound i 10 ltac:(lia)). lia. Qed.
Definition se_rand : rand := {|
  r_salt := λ _, Some (replicate 32 (Zbyte 120)); r_iv := λ _, Some se_iv;
  r_master := Some (replicate 80 (Zbyte 78)); r_ivm := Some se_iv;
  r_pw := λ k, Some (λ n, Zbyte (Z.of_nat ((7 * n + k + 3) mod 256)));
  r_ord := map_to_list |}.
Lemma se_rand_ok : rand_ok se_rand.
Proof. split; [|split; [|split]]; cbn; [intros n b [= <-]|intros n b [= <-]|intros b [= <-]|intros b [= <-]]; done. Qed.
Lemma se_ord : fair_results map_to_list. Proof. intros m. reflexivity. Qed.
Lemma se_room : room se_db. Proof. done. Qed.
Lemma se_room2 : room se_db2. Proof. done. Qed.
Lemma se_unused : unused se_db "u9".
Proof. intros t Ht. apply elem_of_list_In in Ht. cbn in Ht. destruct Ht as [<-|[<-|[<-|[]]]]; done. Qed.
Lemma se_unused2 : unused se_db2 "u9".
Proof.
  intros t Ht. assert (tx_uuid t ∈ tx_uuid <$> vis (db_log se_db2)) as H by by apply elem_of_list_fmap_1.
  intros E. rewrite E in H. revert H. apply (bool_decide_unpack _). vm_compute. exact I.
Qed.
Lemma se_utf8 : utf8 "u9". Proof. utf8_lit. Qed.
(** A line typed twice at the password prompt. *)
Lemma se_typed pw rest : newPassword se_rand (ILine "m" :: ILine pw :: ILine pw :: rest) = UOk pw rest.
Proof.
  assert (∃ p c ev, gp_top (r_pw se_rand) 0 32 any_class "" true = Ok (p, c, ev)) as (p & c & ev & E).
  { do 3 eexists. vm_compute. reflexivity. }
  unfold newPassword, getPassword. cbn [gp_loop]. rewrite E. cbn [String.eqb Ascii.eqb Bool.eqb]. rewrite String.eqb_refl. done.
Qed.
