(** A concrete session with a sync in it.  The ciphers leave the blocks as they
    are, so that a file can be opened in one way only. *)
From Verif Require Import Proof_TxLog Proof_GoStr Proof_Utf8 Proof_Crypt Proof_Crypt2 Proof_Crypt5 Proof_Crypt6 Proof_Crypt7 Proof_Json2 Proof_Merge4 Proof_Session Proof_Session2 Proof_Session3 Proof_Session6.
From Verif Require Import Proof_Sync Proof_Sync3 Proof_Sync5 Proof_Sync6 Proof_SessionEx Spec_Syncing Proof_Syncing Proof_Syncing2 Proof_Syncing3 Proof_Syncing4 Props_Text.
From Coq Require Import Lia.
From stdpp Require Import options.
Import Model_GoStr Proof_Utf8.
#[local] Open Scope nat_scope.

Definition clear : prims := {|
  sha256 := λ b, fit 32 b; sha512 := λ b, fit 64 (reverse b); scrypt := λ p s n, fit n (p ++ s);
  blk_enc := λ _ _ b, b; blk_dec := λ _ _ b, b |}.
Lemma clear_ok : prims_ok clear.
Proof. split; cbn [clear sha256 sha512 scrypt blk_enc blk_dec]; intros; try apply fit_length; done. Qed.
Lemma clear_unseal cs : ∀ cs' iv off ct, cs.*1 = cs'.*1 → Model_Crypt.unseal clear cs iv off ct = Model_Crypt.unseal clear cs' iv off ct.
Proof.
  induction cs as [|[a k] cs IH]; intros [|[a' k'] cs'] iv off ct E; [done|done|done|]. injection E as -> E. cbn [Model_Crypt.unseal].
  unfold cbc_decrypt. cbn [clear blk_dec]. destruct (bback iv off (alg_block a')) as [ivp|e|]; cbn [mbind outcome_bind]; [|done..].
  destruct (_ =? _); cbn [mbind outcome_bind]; [|done]. destruct (Unpad _); [by apply IH|done|done].
Qed.
Lemma makeCiphers_fst key : ∀ l off cs, makeCiphers key off l = Ok cs → cs.*1 = l.
Proof.
  intros l. induction l as [|a l IH]; intros off cs; cbn [makeCiphers]; [intros [= <-]; done|].
  intros (k & _ & E)%bind_ok. apply bind_ok in E as (r & E & [= <-]). cbn. f_equal. by eapply IH.
Qed.
Lemma clear_decode k k' iv ct x x' : Spec_Crypt.decode clear k iv ct = Ok x → Spec_Crypt.decode clear k' iv ct = Ok x' → x = x'.
Proof.
  unfold Spec_Crypt.decode. intros (cs & E1%makeCiphers_fst & E)%bind_ok (cs' & E1'%makeCiphers_fst & E')%bind_ok.
  rewrite (clear_unseal _ (reverse cs')) in E by (rewrite !fmap_reverse; congruence). congruence.
Qed.

(** The files of a session of one user *)
Lemma clear_opens s m e ord riv f sp pass : good (s_db s) m → s_readOnly s = false → single_session clear s pass → length riv = 40 →
  saveBlob clear e ord (Some riv) s = (s, Ok (Some f)) →
  ∀ params pt, opens clear (mk_slice f sp) params pt → Master params = None ∧ ∃ log, NewLog pt = Ok log ∧ vis log = vis (db_log (s_db s)).
Proof.
  intros Hg Hro (Hm & Hk & Hs & Hp) Hr Hsave params pt (user & pw & key & salt & v & D).
  destruct (good_saves _ _ Hg) as (b & d' & Hb & Hn & Hsame).
  assert (length (s_key s) = 80) as Lk by (rewrite Hk; apply (scrypt_len _ clear_ok)).
  destruct (single_genuine clear (params_single (s_key s) (s_salt s)) riv b (s_key s) (s_salt s)) as (ct & E & _ & Ls & Hd & _); try done; [exact clear_ok| | |].
  { apply validate_ok. split; [|by left]. unfold sizes_ok. cbn [params_single Keys Salts]. split; [done|]. split; [done|]. split; constructor; auto. }
  { intros H. rewrite H in Lk. done. }
  assert (f = magic_line 1 0 ++ s_salt s ++ riv ++ ct) as ->.
  { revert Hsave. unfold saveBlob. rewrite Hro, Hb. unfold makeParams. rewrite Hm. cbn [length Nat.eqb]. unfold mret, M_ret, cryptVersion. rewrite E. cbn [mbind outcome_bind].
    intros H. by injection H. }
  rewrite (Decrypt_head _ _ _ _ _ _ 0%Z) in D by apply head_zero. rewrite single_dispatch, single_red in D by (done || apply head_zero).
  apply bind_ok in D as ([p0 pt0] & D & [= _ <- <-]). apply bind_ok in D as (k & _ & D). apply bind_ok in D as (body & Hb2 & D). apply bind_ok in D as (pt1 & Ho & [= <- <-]).
  pose proof (clear_decode _ _ _ _ _ _ Hd Hb2) as <-. split; [done|].
  rewrite open_body_genuine in Ho by apply clear_ok. injection Ho as <-.
  exists (db_log d'). split; [by apply New_NewLog|by destruct Hsame].
Qed.

(** Two machines: each has added an entry called mail. *)
Definition cs_a : list tx := sy_log ++ [mk_tx 20 "add" "a1" "" ""; mk_tx 21 "setk" "a1" "name" "mail"].
Definition cs_b : list tx := sy_log ++ [mk_tx 22 "add" "b1" "" ""; mk_tx 23 "setk" "b1" "name" "mail"].
Definition cs_c : list tx := cs_a ++ [mk_tx 22 "add" "b1" "" ""; mk_tx 23 "setk" "b1" "name" "mail"].
Definition cs_mail : entry := {["name" := "mail"]}.
Definition cs_ma : snapshot := <["a1" := cs_mail]> sy_m.
Definition cs_mb : snapshot := <["b1" := cs_mail]> sy_m.
Definition cs_mc : snapshot := <["b1" := cs_mail]> cs_ma.
Lemma cs_good_a : good (db_of cs_a) cs_ma. Proof. sy_good. Qed.
Lemma cs_good_b : good (db_of cs_b) cs_mb. Proof. sy_good. Qed.
Lemma cs_good_c : good (db_of cs_c) cs_mc. Proof. sy_good. Qed.

Definition cs_session (log : list tx) : session :=
  mk_session false false 10 (db_of log) "" se_pass (key_of clear (str_bytes se_pass) se_salt) se_salt [] [].
Definition cs_file (log : list tx) : bytes :=
  match snd (saveBlob clear se_env map_to_list (Some se_iv) (cs_session log)) with Ok (Some f) => f | _ => [] end.
Definition cs_sync : sync_world := sy_world (λ _, Pulled (mk_slice (cs_file cs_b) [])).
Lemma cs_single log : single_session clear (cs_session log) se_pass.
Proof. repeat split; done. Qed.
Lemma cs_saved log m : good (db_of log) m → saveBlob clear se_env map_to_list (Some se_iv) (cs_session log) = (cs_session log, Ok (Some (cs_file log))).
Proof.
  intros Hg. destruct (single_reopen clear (cs_session log) se_pass m se_env map_to_list se_iv [] None [] clear_ok Hg eq_refl (cs_single log) eq_refl) as (f & _ & E & _).
  unfold cs_file. rewrite E. done.
Qed.
#[local] Opaque saveBlob cs_file key_of.

Lemma cs_pullable ct : pullable cs_sync ct → ct = mk_slice (cs_file cs_b) [].
Proof. intros [(i & b & inp & host & rest & H)|(i & url & H)]; [exfalso; discriminate H|]. unfold cs_sync, sy_world in H. cbn [y_read] in H. congruence. Qed.
Definition cs_U (u : string) : Prop := u ∈ ["s1"; "s2"; "a1"; "b1"].
Lemma cs_within (l : list tx) : bool_decide (Forall (λ t, tx_uuid t ∈ ["s1"; "s2"; "a1"; "b1"]) l) = true → ∀ t, t ∈ l → cs_U (tx_uuid t).
Proof. intros H%bool_decide_eq_true t Ht. rewrite Forall_forall in H. by apply H. Qed.
Lemma cs_tame : tame_sync clear cs_U cs_sync.
Proof.
  split; [split; [apply se_fair|apply sy_fair_hosts]|]. split; [split; intros; exact Logic.I|].
  assert (∀ ct params pt, pullable cs_sync ct → opens clear ct params pt → Master params = None ∧ ∃ log, NewLog pt = Ok log ∧ vis log = cs_b) as Ho.
  { intros ct params pt ->%cs_pullable. apply (clear_opens (cs_session cs_b) cs_mb se_env map_to_list se_iv _ _ se_pass); [apply cs_good_b|done|apply cs_single|done|].
    apply (cs_saved _ cs_mb), cs_good_b. }
  split; [|split].
  - intros log t (ct & params & pt & sl & Hp & Hop & Hn & ->) Ht. destruct (Ho _ _ _ Hp Hop) as (_ & log & Hn' & Hv). rewrite Hn in Hn'. injection Hn' as <-.
    rewrite Hv in Ht. revert t Ht. apply cs_within. compute_dec.
  - intros ct params pt Hp Hop. by destruct (Ho _ _ _ Hp Hop).
  - split; [intros k; apply se_clock|]. split; intros; exact Logic.I.
Qed.
Lemma cs_names_a u b : cs_ma !! u = Some b → (u = "a1" ∧ b = cs_mail) ∨ (u = "s1" ∧ b = sy_b1) ∨ (u = "s2" ∧ b = sy_b2).
Proof. unfold cs_ma. intros [[<- <-]|[_ H]]%lookup_insert_Some; [by left|right]. by apply sy_entries. Qed.
Lemma cs_named : well_named cs_ma.
Proof.
  split.
  - intros u b H. apply cs_names_a in H as [[-> ->]|[[-> ->]|[-> ->]]]; [by exists "mail"|by exists "first"|by exists "second"].
  - intros u1 u2 n (b1 & H1 & N1) (b2 & H2 & N2). apply cs_names_a in H1 as [[-> ->]|[[-> ->]|[-> ->]]], H2 as [[-> ->]|[[-> ->]|[-> ->]]]; try done; exfalso;
      vm_compute in N1; vm_compute in N2; congruence.
Qed.
Lemma cs_s1 : cs_ma !! "s1" = Some sy_b1. Proof. unfold cs_ma. rewrite lookup_insert_ne by done. apply sy_s1. Qed.
Lemma cs_s1c : cs_mc !! "s1" = Some sy_b1. Proof. unfold cs_mc. rewrite lookup_insert_ne by done. apply cs_s1. Qed.

Lemma cs_run inp : ∃ s', sync_cmd clear cs_sync "first" (cs_session cs_a) inp = (s', UOk tt inp) ∧ vis (db_log (s_db s')) = cs_c ∧ good (s_db s') cs_mc ∧
  single_session clear s' se_pass ∧ s_readOnly s' = false.
Proof.
  destruct (shared_sync clear cs_sync "first" (cs_session cs_a) (cs_session cs_b) inp cs_ma cs_mb "s1" "file:///a" (cs_file cs_b) []
    se_env map_to_list se_iv se_iv se_pass cs_c cs_mc "file:///a") as (s' & ct & E & Hm & Hg & Hss & _).
  all: lazymatch goal with
    | |- saveBlob _ _ _ _ _ = _ => apply (cs_saved _ cs_mb), cs_good_b
    | |- ¬ alike _ _ => idtac
    | |- prims_ok _ => apply clear_ok
    | |- good _ cs_ma => apply cs_good_a
    | |- good _ cs_mb => apply cs_good_b
    | |- well_named _ => apply cs_named
    | |- single_session _ _ _ => apply cs_single
    | |- fair _ => apply se_fair
    | |- fair_hosts _ => apply sy_fair_hosts
    | |- valid_log _ => apply valid_b_ok; vm_compute; reflexivity
    | |- compatible _ _ => apply compat_b_ok; vm_compute; reflexivity
    | |- is_union _ _ _ => apply union_b_ok; vm_compute; reflexivity
    | |- conflict_free _ => apply no_del_free; repeat (constructor; [done|]); constructor
    | |- same_root _ _ => apply (sy_root _ _)
    | |- replays _ _ => apply cs_good_c
    | |- called _ _ _ => exists sy_b1; split; [apply cs_s1|done]
    | |- at_file _ cs_ma _ _ => split; [exists sy_b1; split; [apply cs_s1|done]|done]
    | |- at_file _ cs_mc _ _ => split; [exists sy_b1; split; [apply cs_s1c|done]|done]
    | |- ex _ => idtac
    | |- _ => done
    end.
  - intros (_ & _ & H). vm_compute in H. discriminate H.
  - exists s'. unfold sync_cmd. rewrite E. split; [done|]. destruct Hm as (_ & _ & _ & _ & _ & _ & Hv & _ & Hro & _). rewrite app_nil_r in Hv. split; [exact Hv|]. split; [exact Hg|]. split; [exact Hss|].
    rewrite Hro. reflexivity.
Qed.
