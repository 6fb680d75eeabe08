(** C51 for users with several entries, which two machines give rise to that
    both add the same user before they sync. *)
From Verif Require Import Model_Merge Proof_TxLog Proof_GoStr Proof_Utf8 Proof_Blobs Proof_Crypt7 Proof_SessionEx Proof_Twins.
From Coq Require Import Lia.
From stdpp Require Import options.
Import Model_GoStr.
#[local] Open Scope nat_scope.
#[local] Opaque saveBlob loadBlob.

(** The file is written and lets the user in with the passphrase of whichever
    of their entries Go's map iteration came to first. *)
Theorem C51_first_entry : ∀ P e ord riv s m r x u pass sp rsalt rest,
  prims_ok P → serves_rows P s m → fair e → fair_results ord → users_of m r →
  s_readOnly s = false → (∀ b, riv = Some b → length b = 40) →
  comes_first ord r x u → unlocks_at P m (s_master s) x u pass →
  ∃ f s' s2, saveBlob P e ord riv s = (s', Ok (Some f)) ∧ vis (db_log (s_db s')) = vis (db_log (s_db s)) ∧
    loadBlob P (Found (mk_slice f sp)) None rsalt (ILine x :: ILine pass :: rest) = UOk s2 rest ∧ opened_by P m s s2 x u pass.
Proof. exact twins_open. Qed.
Print Assumptions C51_first_entry.

(** Any other passphrase is tried with that entry's salt, too: the credentials
    of the user's other entries are not used. *)
Theorem C51_other_entries_unused : ∀ P e ord riv s m r x u sp rsalt,
  prims_ok P → serves_rows P s m → fair e → fair_results ord → users_of m r →
  s_readOnly s = false → (∀ b, riv = Some b → length b = 40) → comes_first ord r x u →
  ∃ f s' salt iv mkey, saveBlob P e ord riv s = (s', Ok (Some f)) ∧ has_row m x u salt iv mkey ∧
    ∀ pass rest s2 rest', loadBlob P (Found (mk_slice f sp)) None rsalt (ILine x :: ILine pass :: rest) = UOk s2 rest' →
      s_salt s2 = salt ∧ s_key s2 = key_of P (str_bytes pass) salt.
Proof. exact twins_only. Qed.
Print Assumptions C51_other_entries_unused.

(** Hence for every entry of the user there is a run of the same program on the
    same session whose file opens with that entry's passphrase and does not
    look at the others: which passphrase is the user's is left to chance, anew
    with each save. *)
Theorem C51_twins_refuted : ∀ P e riv s m x u pass sp rsalt rest,
  prims_ok P → serves_rows P s m → fair e → s_readOnly s = false → (∀ b, riv = Some b → length b = 40) →
  unlocks_at P m (s_master s) x u pass →
  ∃ ord f s' s2 salt iv mkey, fair_results ord ∧ saveBlob P e ord riv s = (s', Ok (Some f)) ∧ has_row m x u salt iv mkey ∧
    loadBlob P (Found (mk_slice f sp)) None rsalt (ILine x :: ILine pass :: rest) = UOk s2 rest ∧
    ∀ pass' rest1 s3 rest2, loadBlob P (Found (mk_slice f sp)) None rsalt (ILine x :: ILine pass' :: rest1) = UOk s3 rest2 →
      s_salt s3 = salt ∧ s_key s3 = key_of P (str_bytes pass') salt.
Proof.
  intros P e riv s m x u pass sp rsalt rest HP Hs Hf Hro Hriv Hu.
  pose proof Hs as ((Hh & _) & Ha & _). destruct (users_of_exist (s_db s) m e Hh Ha Hf) as [r Hr].
  assert (comes_first (lead u) r x u) as Hc.
  { eapply lead_first; [exact Hr|]. destruct Hu as (_ & salt & iv & mkey & (b & Hb & Hn & _) & _). by exists b. }
  destruct (twins_open P e (lead u) riv s m r x u pass sp rsalt rest HP Hs Hf (lead_fair u) Hr Hro Hriv Hc Hu) as (f & s' & s2 & E & _ & L & _).
  destruct (twins_only P e (lead u) riv s m r x u sp rsalt HP Hs Hf (lead_fair u) Hr Hro Hriv Hc) as (f' & s'' & salt & iv & mkey & E' & Hrow & H).
  rewrite E in E'. injection E' as <- <-.
  exists (lead u), f, s', s2, salt, iv, mkey. split; [apply lead_fair|]. split; [exact E|]. split; [exact Hrow|]. split; [exact L|]. exact H.
Qed.
Print Assumptions C51_twins_refuted.

(** Two machines, each of which adds carol to the store of alice and bob. *)
Definition tw_user_log (t : Z) (u : string) (pass : string) (salt : bytes) : list tx :=
  [mk_tx t "add" u "" ""; mk_tx (t + 1) "setk" u "name" "user/carol"; mk_tx (t + 2) "setk" u "salt" (hex_encode salt);
   mk_tx (t + 3) "setk" u "iv" (hex_encode se_iv); mk_tx (t + 4) "setk" u "mkey" (hex_encode (se_wrap pass salt))].
Definition tw_a : list tx := tw_user_log 30 "u4" "here" se_salt.
Definition tw_b : list tx := tw_user_log 40 "u5" "there" se_salt2.
Definition tw_log : list tx := se_log2 ++ tw_a ++ tw_b.
Definition tw_db : db := mk_db 0 None (mk_slice tw_log []) 0.
Definition tw_m : snapshot := <["u5" := se_user "carol" "there" se_salt2]> (<["u4" := se_user "carol" "here" se_salt]> se_m2).
Definition tw_session : session :=
  mk_session false false 23 tw_db "alice" se_pass (key_of toy (str_bytes se_pass) se_salt) se_salt se_master se_iv.

Lemma tw_u5 : tw_m !! "u5" = Some (se_user "carol" "there" se_salt2). Proof. apply lookup_insert. Qed.
Lemma tw_u4 : tw_m !! "u4" = Some (se_user "carol" "here" se_salt).
Proof. unfold tw_m. rewrite lookup_insert_ne by done. apply lookup_insert. Qed.
Lemma tw_entries u b : tw_m !! u = Some b → (u = "u5" ∧ b = se_user "carol" "there" se_salt2) ∨ (u = "u4" ∧ b = se_user "carol" "here" se_salt) ∨ se_m2 !! u = Some b ∧ u ≠ "u4" ∧ u ≠ "u5".
Proof.
  unfold tw_m. intros H. apply lookup_insert_Some in H as [[<- <-]|[? H]]; [by left|]. apply lookup_insert_Some in H as [[<- <-]|[? H]]; [by right; left|].
  by right; right.
Qed.
Lemma tw_row u x pass salt : tw_m !! u = Some (se_user x pass salt) → has_row tw_m x u salt se_iv (se_wrap pass salt).
Proof.
  intros H. exists (se_user x pass salt). split; [done|]. split; [apply se_user_name|]. unfold se_user, with_row.
  split; [|split]; [| |apply lookup_insert].
  - rewrite !lookup_insert_ne by done. apply lookup_insert.
  - rewrite lookup_insert_ne by done. apply lookup_insert.
Qed.
Ltac find_it := repeat first [apply elem_of_list_here|apply elem_of_list_further].
Lemma tw_called u x : called tw_m u ("user/" +:+ x) →
  ∃ pass salt, tw_m !! u = Some (se_user x pass salt) ∧ length salt = 32 ∧ u ∈ ["u2"; "u3"; "u4"; "u5"] ∧ x ∈ ["alice"; "bob"; "carol"].
Proof.
  intros (b & Hb & Hn). pose proof Hb as Hb'. apply tw_entries in Hb as [[-> ->]|[[-> ->]|[Hb Hne]]].
  - rewrite se_user_name in Hn. injection Hn as <-. exists "there", se_salt2. split; [done|]. split; [done|]. split; find_it.
  - rewrite se_user_name in Hn. injection Hn as <-. exists "here", se_salt. split; [done|]. split; [done|]. split; find_it.
  - assert (called se_m2 u ("user/" +:+ x)) as Hc by (by exists b). apply se_called in Hc as [[-> ->]|[-> ->]].
    + rewrite se_u3 in Hb. injection Hb as <-. exists se_pass2, se_salt2. split; [done|]. split; [done|]. split; find_it.
    + rewrite se_u2 in Hb. injection Hb as <-. exists se_pass, se_salt. split; [done|]. split; [done|]. split; find_it.
Qed.
Lemma tw_users x : is_user tw_m x → x ∈ ["alice"; "bob"; "carol"].
Proof. intros (u & H). by apply tw_called in H as (? & ? & _ & _ & _ & ?). Qed.
Lemma tw_good : good tw_db tw_m.
Proof.
  split; [split; [split; [compute_dec|apply replay_fn_ok; compute_dec]|apply replay_fn_ok; compute_dec]|]. split; [done|]. split; [|split; [|done]].
  - cbn [tw_db db_log vis]. unfold tw_log, tw_a, tw_b, tw_user_log, se_log2, se_log, se_user_log. cbn [app]. repeat (constructor; [utf8_tx|]). constructor.
  - cbn [tw_db db_log vis]. unfold tw_log, tw_a, tw_b, tw_user_log, se_log2, se_log, se_user_log. cbn [app]. repeat (constructor; [done|]). constructor.
Qed.
Lemma tw_serves : serves_rows toy tw_session tw_m.
Proof.
  split; [exact tw_good|]. split.
  { intros u b H. apply tw_entries in H as [[-> ->]|[[-> ->]|[H _]]]; [eexists; apply se_user_name..|]. by apply (proj1 se_named2) in H. }
  split; [|split; [done|split; [done|right; apply (scrypt_len _ toy_ok)]]].
  split; [|split; [|split]].
  - intros u x (pass & salt & E & L & _ & Hx)%tw_called. split; [intros ->; rewrite !elem_of_cons, elem_of_nil in Hx; destruct Hx as [?|[?|[?|[]]]]; discriminate|].
    exists salt, se_iv, (se_wrap pass salt). split; [by apply tw_row|]. split; [done|]. split; [done|]. by apply se_wrap_ok.
  - intros x y Hx%tw_users Hy%tw_users.
    rewrite !elem_of_cons, elem_of_nil in Hx, Hy. destruct Hx as [->|[->|[->|[]]]], Hy as [->|[->|[->|[]]]]; try done; intros E; exfalso; vm_compute in E; done.
  - exists "carol", "u4". eexists. split; [apply tw_u4|apply se_user_name].
  - intros l Hnd Hin. assert (length l ≤ length ["u2"; "u3"; "u4"; "u5"]) as H; [|cbn [length] in H; lia].
    apply submseteq_length, NoDup_submseteq; [done|]. intros u Hu. destruct (Hin u Hu) as (x & (? & ? & _ & _ & H & _)%tw_called). exact H.
Qed.

(** The sync of the two merges their histories; afterwards carol can be let in
    with either passphrase, depending on the run. *)
Example C51_twins_example :
  TxMerge (se_log2 ++ tw_a) (se_log2 ++ tw_b) [] = Ok (Merged tw_log) ∧ vis (db_log (s_db tw_session)) = tw_log ∧
  serves_rows toy tw_session tw_m ∧ s_readOnly tw_session = false ∧
  unlocks_at toy tw_m se_master "carol" "u4" "here" ∧ unlocks_at toy tw_m se_master "carol" "u5" "there".
Proof.
  split; [vm_compute; reflexivity|]. split; [reflexivity|]. split; [exact tw_serves|]. split; [reflexivity|]. split.
  - split; [done|]. exists se_salt, se_iv, (se_wrap "here" se_salt). split; [apply tw_row, tw_u4|by apply se_wrap_ok].
  - split; [done|]. exists se_salt2, se_iv, (se_wrap "there" se_salt2). split; [apply tw_row, tw_u5|by apply se_wrap_ok].
Qed.
