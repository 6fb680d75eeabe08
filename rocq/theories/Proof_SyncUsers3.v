(** A concrete session with a sync in it, in a store with two users.  As in
    Proof_Syncing5, the ciphers leave the blocks as they are. *)
From Verif Require Import Proof_TxLog Proof_GoStr Proof_Utf8 Proof_Blobs Proof_Crypt Proof_Crypt2 Proof_Crypt3 Proof_Crypt4 Proof_Crypt5 Proof_Crypt6 Proof_Crypt7 Proof_Json2 Proof_Merge4 Proof_Session Proof_Session2 Proof_Session3 Proof_Session6.
From Verif Require Import Proof_Sync Proof_Sync3 Proof_Sync5 Proof_Sync6 Proof_SessionEx Proof_Syncing Proof_Syncing5 Spec_SyncUsers Proof_SyncUsers2 Proof_Runs Proof_Multi.
From Coq Require Import Lia.
From stdpp Require Import options.
Import Model_GoStr Proof_Utf8.
#[local] Open Scope nat_scope.

Lemma clear_unwrap cs : ∀ cs' iv off ct, cs.*1 = cs'.*1 → unwrap clear cs iv off ct = unwrap clear cs' iv off ct.
Proof.
  induction cs as [|[a k] cs IH]; intros [|[a' k'] cs'] iv off ct E; [done|done|done|]. injection E as -> E. cbn [unwrap].
  unfold cbc_decrypt. cbn [clear blk_dec]. destruct (bback iv off (alg_block a')) as [ivp|e|]; cbn [mbind outcome_bind]; [|done..].
  destruct (_ =? _); cbn [mbind outcome_bind]; [by apply IH|done].
Qed.
Lemma clear_key k k' iv mk x x' : unwrap_key clear k iv mk = Ok x → unwrap_key clear k' iv mk = Ok x' → x = x'.
Proof.
  unfold unwrap_key. intros (cs & E1%makeCiphers_fst & E)%bind_ok (cs' & E1'%makeCiphers_fst & E')%bind_ok.
  rewrite (clear_unwrap _ (reverse cs')) in E by (rewrite !fmap_reverse; congruence). congruence.
Qed.

(** A file of several users opens in one way only. *)
Lemma clear_users s m e ord riv sa f sp : serves clear s m → s_readOnly s = false → fair e → fair_results ord →
  saveBlob clear e ord riv s = (sa, Ok (Some f)) → (∀ x, is_user m x → ∃ pass, unlocks clear m (s_master s) x pass) →
  ∀ params pt, opens clear (mk_slice f sp) params pt → Master params = Some (s_master s) ∧ ∃ log, NewLog pt = Ok log ∧ vis log = vis (db_log (s_db s)).
Proof.
  intros (Hg & [Ha Hun] & Hms) Hro Hf Ho Hsv Hul params pt (user & pw & key & salt & v & D). pose proof clear_ok as HP.
  destruct (good_saves _ _ Hg) as (b & d' & Hb & Hn & Hsame). destruct Hg as (Hh & _).
  destruct (makeParams_multi clear e ord s (s_db s) m HP Hh Ha Hf Ho Hms)
    as (d1 & p & rows & E1 & Hh1 & Hv1 & Hok & H9 & HI & HM & HS & HU & HIV & HMK & HN & Hnd & Hrows & Hall).
  destruct (multi_genuine clear p riv b HP Hok) as (m0 & ivm & ct & HM0 & HI0 & Lm & Li & E & Hd & _).
  rewrite HM in HM0. injection HM0 as <-.
  assert (f = multi_header p ivm ++ ct) as ->. { revert Hsv. unfold saveBlob. rewrite Hro, Hb, E1. unfold cryptVersion. rewrite E. cbn. intros H. by injection H. }
  destruct (multi_layout p ivm ct Hok Li H9) as (Hlay & Hhd & Ht & Hread & Htok). destruct (multi_ok_parts p Hok) as (_ & _ & Hn1 & _).
  rewrite Hlay in D. rewrite (Decrypt_head clear _ _ _ _ _ (NUsers p)) in D by done. unfold dispatch in D.
  rewrite (proj2 (Z.eqb_neq (NUsers p) 0)) in D by lia. cbn [negb andb] in D. destruct (length user =? 0); [by apply bind_ok in D as (? & [=] & _)|].
  apply bind_ok in D as ([p0 pt0] & D & [= _ <- <-]). rewrite (multi_red clear (NUsers p) user pw key salt _ _ _ ivm ct sp ltac:(lia) (proj1 Hhd) Li Ht Hread Htok) in D.
  cbn [t_users t_salts t_ivs t_mkeys] in D.
  pose proof (find_user_range (sha256 clear user) 0 (Model_Crypt.Users p)) as Hr. set (found := find_user _ _ _) in D, Hr.
  set (usr := if (found <? 0)%Z then 0 else Z.to_nat found) in D.
  assert (usr < length rows) as Hlt.
  { unfold usr. rewrite HU, fmap_length in Hr. destruct (found <? 0)%Z eqn:Ef; [lia|]. apply Z.ltb_ge in Ef. lia. }
  destruct (lookup_lt_is_Some_2 rows usr Hlt) as [w Hw].
  destruct (Hrows w (elem_of_list_lookup_2 _ _ _ Hw)) as (u & Hrow).
  assert (is_user m (w_name w)) as Hiu by (destruct Hrow as (bb & ? & ? & _); by exists u, bb).
  destruct (Hul _ Hiu) as (pass & Hp & u' & salt' & iv' & mkey' & Hrow' & Hwrap).
  assert (w = mk_row (w_name w) salt' iv' mkey') as Ew.
  { destruct (elem_of_list_lookup_1 _ _ (Hall _ _ _ _ _ Hrow')) as [j Hj]. assert (j = usr) as ->; [|congruence].
    eapply (NoDup_lookup (w_name <$> rows)); [done|rewrite list_lookup_fmap, Hj; done|rewrite list_lookup_fmap, Hw; done]. }
  assert (∀ k x, unwrap_key clear k (w_iv w) (w_mkey w) = Ok x → x = s_master s) as Hone.
  { intros k x Hx. destruct Hms as (_ & _ & _ & (Htt & _) & _).
    assert (length (w_iv w) = 40) as Liv.
    { destruct (Htt u (w_name w)) as (_ & _ & s1 & i1 & k1 & Hr1 & _ & L1 & _); [destruct Hrow as (bb & ? & ? & _); by exists bb|].
      destruct (elem_of_list_lookup_1 _ _ (Hall _ _ _ _ _ Hr1)) as [j Hj]. assert (j = usr) as ->; [|rewrite Hw in Hj; injection Hj as ->; done].
      eapply (NoDup_lookup (w_name <$> rows)); [done|rewrite list_lookup_fmap, Hj; done|rewrite list_lookup_fmap, Hw; done]. }
    rewrite Ew in Liv, Hx. cbn [w_iv w_mkey] in Liv, Hx.
    destruct (EncryptMasterKey_ok clear (key_of clear (str_bytes pass) salt') (s_master s) iv' HP) as (mk' & E2 & _ & Hun'); [apply (scrypt_len _ HP)|done|done|].
    rewrite Hwrap in E2. injection E2 as ->. by eapply clear_key. }
  apply bind_ok in D as (k & _ & D). apply bind_ok in D as (master & Hmas & D). apply bind_ok in D as (body & Hbody & D). apply bind_ok in D as (header & _ & D).
  apply bind_ok in D as (pt1 & Hpt & [= <- <-]).
  rewrite (at_some (IVs p) usr (w_iv w)), (at_some (MKeys p) usr (w_mkey w)) in Hmas by (rewrite ?HIV, ?HMK, list_lookup_fmap, Hw; done).
  apply Hone in Hmas as ->. split; [done|].
  rewrite Hd in Hbody. injection Hbody as <-. apply open_body_ok in Hpt as (Hb1 & _). rewrite take_app_len in Hb1 by (first [apply (sha512_len _ HP)|symmetry; apply (sha512_len _ HP)]). apply app_inv_head in Hb1 as <-.
  exists (db_log d'). split; [by apply New_NewLog|by destruct Hsame].
Qed.

(** Alice and Bob; two of their machines have each added an entry. *)
Definition cu_wrap (pass : string) (salt : bytes) : bytes := (ok_or ([], []) (EncryptMasterKey clear 1 (key_of clear (str_bytes pass) salt) se_master (Some se_iv))).1.
Definition cu_user (x : string) (pass : string) (salt : bytes) : entry :=
  with_row salt se_iv (cu_wrap pass salt) (<["name" := "user/" +:+ x]> ∅).
Definition cu_user_log (t : Z) (u x : string) (pass : string) (salt : bytes) : list tx :=
  [mk_tx t "add" u "" ""; mk_tx (t + 1) "setk" u "name" ("user/" +:+ x); mk_tx (t + 2) "setk" u "salt" (hex_encode salt);
   mk_tx (t + 3) "setk" u "iv" (hex_encode se_iv); mk_tx (t + 4) "setk" u "mkey" (hex_encode (cu_wrap pass salt))].
Definition cu_log : list tx :=
  [mk_tx 10 "add" "s1" "" ""; mk_tx 11 "setk" "s1" "name" "first"; mk_tx 12 "setk" "s1" "sync" "true"; mk_tx 13 "setk" "s1" "url" "file:///a"] ++
  cu_user_log 20 "u2" "alice" se_pass se_salt ++ cu_user_log 30 "u3" "bob" se_pass2 se_salt2.
Definition cu_m : snapshot :=
  <["u3" := cu_user "bob" se_pass2 se_salt2]> (<["u2" := cu_user "alice" se_pass se_salt]> {["s1" := sy_b1]}).
Definition cu_new (t : Z) (u n : string) : list tx := [mk_tx t "add" u "" ""; mk_tx (t + 1) "setk" u "name" n].
Definition cu_entry (n : string) : entry := {["name" := n]}.
Definition cu_a : list tx := cu_log ++ cu_new 40 "a1" "mail".
Definition cu_b : list tx := cu_log ++ cu_new 42 "b1" "bank".
Definition cu_c : list tx := cu_a ++ cu_new 42 "b1" "bank".
Definition cu_ma : snapshot := <["a1" := cu_entry "mail"]> cu_m.
Definition cu_mb : snapshot := <["b1" := cu_entry "bank"]> cu_m.
Definition cu_mc : snapshot := <["b1" := cu_entry "bank"]> cu_ma.
Ltac cu_good l := split; [split; [split; [compute_dec|apply replay_fn_ok; compute_dec]|apply replay_fn_ok; compute_dec]|]; split; [done|]; split; [|split; [|done]];
  cbn [db_of db_log vis]; unfold l, cu_c, cu_a, cu_b, cu_log, cu_user_log, cu_new; cbn [app]; [repeat (constructor; [utf8_tx|]); constructor|repeat (constructor; [done|]); constructor].
Lemma cu_good_a : good (db_of cu_a) cu_ma. Proof. cu_good cu_a. Qed.
Lemma cu_good_b : good (db_of cu_b) cu_mb. Proof. cu_good cu_b. Qed.
Lemma cu_good_c : good (db_of cu_c) cu_mc. Proof. cu_good cu_c. Qed.

Lemma cu_entries u b : cu_m !! u = Some b →
  (u = "u3" ∧ b = cu_user "bob" se_pass2 se_salt2) ∨ (u = "u2" ∧ b = cu_user "alice" se_pass se_salt) ∨ (u = "s1" ∧ b = sy_b1).
Proof.
  unfold cu_m. intros H. apply lookup_insert_Some in H as [[<- <-]|[_ H]]; [by left|]. apply lookup_insert_Some in H as [[<- <-]|[_ H]]; [by right; left|].
  right. right. by apply lookup_singleton_Some in H as [<- <-].
Qed.
Lemma cu_user_name x pass salt : cu_user x pass salt !! "name" = Some ("user/" +:+ x).
Proof. unfold cu_user. rewrite with_row_name. apply lookup_insert. Qed.
Lemma cu_row u x pass salt : cu_m !! u = Some (cu_user x pass salt) → has_row cu_m x u salt se_iv (cu_wrap pass salt).
Proof.
  intros H. exists (cu_user x pass salt). split; [done|]. split; [apply cu_user_name|]. unfold cu_user, with_row.
  split; [|split]; [| |apply lookup_insert].
  - rewrite !lookup_insert_ne by done. apply lookup_insert.
  - rewrite lookup_insert_ne by done. apply lookup_insert.
Qed.
Lemma cu_wrap_ok pass salt : length salt = 32 → EncryptMasterKey clear 1 (key_of clear (str_bytes pass) salt) se_master (Some se_iv) = Ok (cu_wrap pass salt, se_iv) ∧
  length (cu_wrap pass salt) = 80.
Proof.
  intros Hs. destruct (EncryptMasterKey_ok clear (key_of clear (str_bytes pass) salt) se_master se_iv) as (mkey & E & L & _); [apply clear_ok|apply (scrypt_len _ clear_ok)|done|done|].
  unfold cu_wrap. rewrite E. done.
Qed.
Lemma cu_u3 : cu_m !! "u3" = Some (cu_user "bob" se_pass2 se_salt2). Proof. unfold cu_m. apply lookup_insert. Qed.
Lemma cu_u2 : cu_m !! "u2" = Some (cu_user "alice" se_pass se_salt). Proof. unfold cu_m. rewrite lookup_insert_ne by done. apply lookup_insert. Qed.
Lemma cu_s1 : cu_m !! "s1" = Some sy_b1. Proof. unfold cu_m. rewrite !lookup_insert_ne by done. apply lookup_singleton. Qed.
Lemma cu_called u x : called cu_m u ("user/" +:+ x) → (u = "u3" ∧ x = "bob") ∨ (u = "u2" ∧ x = "alice").
Proof.
  intros (b & Hb & Hn). apply cu_entries in Hb as [[-> ->]|[[-> ->]|[-> ->]]].
  - rewrite cu_user_name in Hn. injection Hn as <-. by left.
  - rewrite cu_user_name in Hn. injection Hn as <-. by right.
  - vm_compute in Hn. done.
Qed.
Lemma cu_users x : is_user cu_m x ↔ x ∈ ["alice"; "bob"].
Proof.
  split.
  - intros (u & H). apply cu_called in H as [[_ ->]|[_ ->]]; set_solver.
  - intros [->|[->|H%elem_of_nil]%elem_of_cons]%elem_of_cons; [exists "u2"; eexists; split; [apply cu_u2|apply cu_user_name]|exists "u3"; eexists; split; [apply cu_u3|apply cu_user_name]|done].
Qed.
Lemma cu_named : well_named cu_m.
Proof.
  split.
  - intros u b H. apply cu_entries in H as [[-> ->]|[[-> ->]|[-> ->]]]; [eexists; apply cu_user_name..|]. by exists "first".
  - intros u1 u2 n (b1 & H1 & N1) (b2 & H2 & N2).
    apply cu_entries in H1 as [[-> ->]|[[-> ->]|[-> ->]]], H2 as [[-> ->]|[[-> ->]|[-> ->]]]; try done;
      rewrite ?cu_user_name in N1; rewrite ?cu_user_name in N2; try (vm_compute in N1); try (vm_compute in N2); congruence.
Qed.
Lemma cu_table : table_ok clear cu_m.
Proof.
  split; [|split; [|split]].
  - intros u x H. apply cu_called in H as [[-> ->]|[-> ->]]; (split; [done|]; split; [done|]).
    + exists se_salt2, se_iv, (cu_wrap se_pass2 se_salt2). split; [apply cu_row, cu_u3|]. split; [done|]. split; [done|]. by apply cu_wrap_ok.
    + exists se_salt, se_iv, (cu_wrap se_pass se_salt). split; [apply cu_row, cu_u2|]. split; [done|]. split; [done|]. by apply cu_wrap_ok.
  - intros x y Hx Hy. apply cu_users in Hx, Hy.
    apply elem_of_cons in Hx as [->|[->|H%elem_of_nil]%elem_of_cons], Hy as [->|[->|H'%elem_of_nil]%elem_of_cons]; try done; intros E; exfalso; vm_compute in E; done.
  - exists "alice". apply cu_users. set_solver.
  - intros l Hnd Hin. assert (length l ≤ length ["alice"; "bob"]) as H; [|cbn [length] in H; lia].
    apply submseteq_length, NoDup_submseteq; [done|]. intros x Hx. apply cu_users. by apply Hin.
Qed.
Lemma cu_alice : unlocks clear cu_m se_master "alice" se_pass.
Proof. split; [done|]. exists "u2", se_salt, se_iv, (cu_wrap se_pass se_salt). split; [apply cu_row, cu_u2|by apply cu_wrap_ok]. Qed.
Lemma cu_bob : unlocks clear cu_m se_master "bob" se_pass2.
Proof. split; [done|]. exists "u3", se_salt2, se_iv, (cu_wrap se_pass2 se_salt2). split; [apply cu_row, cu_u3|by apply cu_wrap_ok]. Qed.

(** Another entry, that is not a user *)
Lemma new_called (m : snapshot) u n v n' : m !! u = None → called (<[u := cu_entry n]> m) v n' ↔ (v = u ∧ n' = n) ∨ called m v n'.
Proof.
  intros Hu. unfold called. split.
  - intros (b & Hb & Hn). apply lookup_insert_Some in Hb as [[<- <-]|[_ Hb]]; [|right; by exists b]. left. unfold cu_entry in Hn. rewrite lookup_singleton in Hn. by injection Hn as <-.
  - intros [[-> ->]|(b & Hb & Hn)].
    + exists (cu_entry n). rewrite lookup_insert. split; [done|]. apply lookup_singleton.
    + exists b. split; [|done]. rewrite lookup_insert_ne; [done|]. intros ->. congruence.
Qed.
Lemma new_named (m : snapshot) u n : well_named m → m !! u = None → (∀ v, ¬ called m v n) → well_named (<[u := cu_entry n]> m).
Proof.
  intros [H1 H2] Hu Hn. split.
  - intros v b H. apply lookup_insert_Some in H as [[<- <-]|[_ H]]; [exists n; apply lookup_singleton|by eapply H1].
  - intros u1 u2 n' [[-> ->]|C1]%(new_called _ _ _ _ _ Hu) [[-> E]|C2]%(new_called _ _ _ _ _ Hu); [done|by destruct (Hn u2)|subst n'; by destruct (Hn u1)|by eapply H2].
Qed.
Lemma new_same (m : snapshot) u n : m !! u = None → (∀ x, n ≠ "user/" +:+ x) → same_users m (<[u := cu_entry n]> m).
Proof.
  intros Hu Hn v x [C|C]; [|apply (new_called _ _ _ _ _ Hu) in C as [[_ E]|C]; [by destruct (Hn x)|]]; destruct C as (b & Hb & _); (rewrite lookup_insert_ne; [done|]); intros ->; congruence.
Qed.
Lemma cu_free u : u ≠ "u3" → u ≠ "u2" → u ≠ "s1" → cu_m !! u = None.
Proof. intros H1 H2 H3. destruct (cu_m !! u) as [b|] eqn:E; [|done]. apply cu_entries in E as [[? _]|[[? _]|[? _]]]; done. Qed.
Lemma cu_not_called u n : n ≠ "first" → (∀ x, n ≠ "user/" +:+ x) → ¬ called cu_m u n.
Proof.
  intros H1 H2 (b & Hb & Hn). apply cu_entries in Hb as [[-> ->]|[[-> ->]|[-> ->]]]; [rewrite cu_user_name in Hn; injection Hn as <-; by eapply H2..|].
  apply H1. vm_compute in Hn. congruence.
Qed.
Lemma cu_named_a : well_named cu_ma.
Proof. apply new_named; [apply cu_named|by apply cu_free|]. intros v. by apply cu_not_called. Qed.
Lemma cu_named_b : well_named cu_mb.
Proof. apply new_named; [apply cu_named|by apply cu_free|]. intros v. by apply cu_not_called. Qed.
Lemma cu_free_c : cu_ma !! "b1" = None.
Proof. unfold cu_ma. rewrite lookup_insert_ne by done. by apply cu_free. Qed.
Lemma cu_named_c : well_named cu_mc.
Proof.
  apply new_named; [apply cu_named_a|apply cu_free_c|]. intros v [[_ E]|C]%new_called; [discriminate E| |by apply cu_free]. revert C. by apply cu_not_called.
Qed.
Lemma cu_same_a : same_users cu_m cu_ma.
Proof. apply new_same; [by apply cu_free|done]. Qed.
Lemma cu_same_b : same_users cu_m cu_mb.
Proof. apply new_same; [by apply cu_free|done]. Qed.
Lemma cu_same_ac : same_users cu_ma cu_mc.
Proof. apply new_same; [apply cu_free_c|done]. Qed.
Lemma cu_same_c : same_users cu_m cu_mc.
Proof.
  intros u x H. assert (called cu_ma u ("user/" +:+ x)) as Ha by (destruct H as [H|H]; [by eapply same_called; [apply cu_same_a|]|eapply same_called; [apply same_users_sym, cu_same_ac|done]]).
  rewrite (cu_same_ac u x), (cu_same_a u x); [done| |]; auto.
Qed.

Definition cu_session (log : list tx) : session :=
  mk_session false false 14 (db_of log) "alice" se_pass (key_of clear (str_bytes se_pass) se_salt) se_salt se_master se_iv.
Definition cu_file (log : list tx) : bytes :=
  match snd (saveBlob clear se_env map_to_list (Some se_iv) (cu_session log)) with Ok (Some f) => f | _ => [] end.
Definition cu_sync : sync_world := sy_world (λ _, Pulled (mk_slice (cu_file cu_b) [])).
Lemma cu_serves log m : good (db_of log) m → well_named m → same_users cu_m m → serves clear (cu_session log) m.
Proof.
  intros Hg Hn Hs. split; [done|]. split; [done|]. split; [done|]. split; [done|]. split; [right; apply (scrypt_len _ clear_ok)|]. split; [|apply Hn].
  eapply same_table; [exact Hs|apply cu_table].
Qed.
Lemma cu_iv b : Some se_iv = Some b → length b = 40. Proof. by intros [= <-]. Qed.
Lemma cu_saved log m : serves clear (cu_session log) m → same_users cu_m m → ∃ sa, saveBlob clear se_env map_to_list (Some se_iv) (cu_session log) = (sa, Ok (Some (cu_file log))).
Proof.
  intros Hg Hs. destruct (multi_saves clear (cu_session log) m se_env map_to_list (Some se_iv) "alice" se_pass clear_ok Hg se_fair se_ord eq_refl cu_iv) as (sa & f & E).
  { eapply same_unlocks; [exact Hs|apply cu_alice]. }
  exists sa. unfold cu_file. rewrite E. done.
Qed.
#[local] Opaque saveBlob cu_file key_of.

Lemma cu_serves_a : serves clear (cu_session cu_a) cu_ma. Proof. apply cu_serves; [apply cu_good_a|apply cu_named_a|apply cu_same_a]. Qed.
Lemma cu_serves_b : serves clear (cu_session cu_b) cu_mb. Proof. apply cu_serves; [apply cu_good_b|apply cu_named_b|apply cu_same_b]. Qed.
Lemma cu_pullable ct : pullable cu_sync ct → ct = mk_slice (cu_file cu_b) [].
Proof. intros [(i & b & inp & host & rest & H)|(i & url & H)]; [exfalso; discriminate H|]. unfold cu_sync, sy_world in H. cbn [y_read] in H. congruence. Qed.
Definition cu_U (u : string) : Prop := u ∈ ["s1"; "u2"; "u3"; "a1"; "b1"].
Lemma cu_within (l : list tx) : bool_decide (Forall (λ t, tx_uuid t ∈ ["s1"; "u2"; "u3"; "a1"; "b1"]) l) = true → ∀ t, t ∈ l → cu_U (tx_uuid t).
Proof. intros H%bool_decide_eq_true t Ht. rewrite Forall_forall in H. by apply H. Qed.
Lemma cu_all m x : same_users cu_m m → is_user m x → ∃ pass, unlocks clear m se_master x pass.
Proof.
  intros Hs Hx. eapply same_is_user in Hx; [|by apply same_users_sym]. apply cu_users in Hx.
  apply elem_of_cons in Hx as [->|[->|H%elem_of_nil]%elem_of_cons]; [exists se_pass|exists se_pass2|done]; (eapply same_unlocks; [exact Hs|]); [apply cu_alice|apply cu_bob].
Qed.
Lemma cu_tame : tame_users clear cu_U se_master cu_sync.
Proof.
  split; [split; [apply se_fair|apply sy_fair_hosts]|]. split; [split; intros; exact Logic.I|].
  assert (∀ ct params pt, pullable cu_sync ct → opens clear ct params pt → Master params = Some se_master ∧ ∃ log, NewLog pt = Ok log ∧ vis log = cu_b) as Ho.
  { intros ct params pt ->%cu_pullable. destruct (cu_saved cu_b cu_mb cu_serves_b cu_same_b) as [sa Es].
    apply (clear_users (cu_session cu_b) cu_mb se_env map_to_list (Some se_iv) sa); [apply cu_serves_b|done|apply se_fair|apply se_ord|exact Es|].
    intros x Hx. exact (cu_all cu_mb x cu_same_b Hx). }
  split; [|split].
  - intros log t (ct & params & pt & sl & Hp & Hop & Hn & ->) Ht. destruct (Ho _ _ _ Hp Hop) as (_ & log & Hn' & Hv). rewrite Hn in Hn'. injection Hn' as <-.
    rewrite Hv in Ht. revert t Ht. apply cu_within. compute_dec.
  - intros ct params pt Hp Hop. by destruct (Ho _ _ _ Hp Hop).
  - split; [intros k; apply se_clock|]. split; intros; exact Logic.I.
Qed.
Lemma cu_s1a : cu_ma !! "s1" = Some sy_b1. Proof. unfold cu_ma. rewrite lookup_insert_ne by done. apply cu_s1. Qed.
Lemma cu_s1c : cu_mc !! "s1" = Some sy_b1. Proof. unfold cu_mc. rewrite lookup_insert_ne by done. apply cu_s1a. Qed.
Lemma cu_root : same_root cu_a cu_b. Proof. intros x y [= <-] [= <-]. done. Qed.

Lemma cu_run inp : ∃ s' ct, sync clear cu_sync "first" true (cu_session cu_a) inp = (s', [mk_push "s1" "file:///a" ct None], UOk tt inp) ∧ vis (db_log (s_db s')) = cu_c ∧
  serves clear s' cu_mc ∧ s_master s' = se_master ∧ s_readOnly s' = false ∧
  ∀ z pw, (z, pw) ∈ [("alice", se_pass); ("bob", se_pass2)] → ∀ sp rsalt r, ∃ s3, loadBlob clear (Found (mk_slice ct sp)) None rsalt (ILine z :: ILine pw :: r) = UOk s3 r ∧
    vis (db_log (s_db s3)) = cu_c ∧ s_user s3 = z.
Proof.
  destruct (cu_saved cu_b cu_mb cu_serves_b cu_same_b) as [sa Es].
  destruct (shared_users clear cu_sync "first" (cu_session cu_a) (cu_session cu_b) sa inp cu_ma cu_mb "s1" "file:///a" (cu_file cu_b) []
    se_env map_to_list (Some se_iv) "alice" se_pass cu_c cu_mc "file:///a") as (s' & ct & E & Hm & Hsv & _ & Hop).
  all: lazymatch goal with
    | |- saveBlob _ _ _ _ _ = _ => exact Es
    | |- ¬ alike _ _ => idtac
    | |- prims_ok _ => apply clear_ok
    | |- serves _ _ cu_ma => apply cu_serves_a
    | |- serves _ _ cu_mb => apply cu_serves_b
    | |- well_named _ => apply cu_named_c
    | |- table_ok _ _ => eapply same_table; [apply cu_same_c|apply cu_table]
    | |- unlocks _ cu_mb _ _ _ => eapply same_unlocks; [apply cu_same_b|apply cu_alice]
    | |- unlocks _ cu_mc _ _ _ => eapply same_unlocks; [apply cu_same_c|apply cu_alice]
    | |- fair _ => apply se_fair
    | |- fair_results _ => apply se_ord
    | |- fair_hosts _ => apply sy_fair_hosts
    | |- valid_log _ => apply valid_b_ok; vm_compute; reflexivity
    | |- compatible _ _ => apply compat_b_ok; vm_compute; reflexivity
    | |- is_union _ _ _ => apply union_b_ok; vm_compute; reflexivity
    | |- conflict_free _ => apply no_del_free; repeat (constructor; [done|]); constructor
    | |- same_root _ _ => exact cu_root
    | |- replays _ _ => apply cu_good_c
    | |- called _ _ _ => exists sy_b1; split; [apply cu_s1a|done]
    | |- at_file _ cu_ma _ _ => split; [exists sy_b1; split; [apply cu_s1a|done]|done]
    | |- at_file _ cu_mc _ _ => split; [exists sy_b1; split; [apply cu_s1c|done]|done]
    | |- ∀ b, _ = Some b → _ => exact cu_iv
    | |- ex _ => idtac
    | |- _ => done
    end.
  - intros (_ & _ & H). vm_compute in H. discriminate H.
  - exists s', ct. split; [exact E|]. destruct Hm as (_ & _ & _ & _ & Hma & _ & Hv & _ & Hro & _). rewrite app_nil_r in Hv. split; [exact Hv|]. split; [exact Hsv|]. split; [exact Hma|].
    split; [rewrite Hro; reflexivity|]. intros z pw Hz sp rsalt r. clear E Hsv Hma Hv Hro.
    assert (unlocks clear cu_mc se_master z pw) as Hu.
    { clear Hop Es. apply elem_of_cons in Hz as [[= -> ->]|[[= -> ->]|Hz%elem_of_nil]%elem_of_cons]; [eapply same_unlocks; [apply cu_same_c|apply cu_alice]|eapply same_unlocks; [apply cu_same_c|apply cu_bob]|destruct Hz]. }
    destruct (Hop z pw Hu sp rsalt r) as (s3 & H1 & H2 & _ & _ & H3). exists s3. split; [exact H1|]. split; [exact H2|exact H3].
Qed.
