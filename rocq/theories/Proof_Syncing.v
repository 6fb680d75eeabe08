(** Proofs about a sync in the middle of a session: the input is read in order,
    what is merged comes from one log or the other, and the history can be
    replayed afterwards. *)
From Verif Require Import Proof_TxLog Proof_GoStr Proof_Utf8 Proof_Merge Proof_Merge2 Proof_Blobs Proof_Blobs2 Proof_Session2 Proof_Session3 Proof_Session5 Proof_Sync Proof_Sync2 Proof_Sync3 Proof_Text2 Proof_Text3.
From Verif Require Export Proof_Weak Proof_Main Spec_Syncing.
From Coq Require Import Lia.
From stdpp Require Import options.
Import Model_GoStr Proof_Utf8.
#[local] Open Scope nat_scope.

(** ** The input is read in order *)
Lemma rd_pullBlob y i b inp : ssh_in_order y → in_order (pullBlob y i b inp) inp.
Proof.
  intros [H _]. unfold pullBlob. destruct (y_scheme _ _) as [sch|]; [|done]. destruct (String.eqb _ _).
  - specialize (H i b inp). by destruct (y_ssh_pull y i b inp).
  - destruct (String.eqb _ _); apply in_order_ok.
Qed.
Lemma rd_pushBlob y i b ct inp : ssh_in_order y → in_order (pushBlob y i b ct inp) inp.
Proof.
  intros [_ H]. unfold pushBlob. destruct (y_scheme _ _) as [sch|]; [|done]. destruct (String.eqb _ _).
  - specialize (H i b ct inp). by destruct (y_ssh_push y i b ct inp).
  - destruct (String.eqb _ _); apply in_order_ok.
Qed.
Lemma rd_decryptBlob P key salt ct inp : ∀ user pass, in_order (decryptBlob P key salt ct user pass inp) inp.
Proof.
  induction inp as [|i inp IH]; intros user pass; cbn [decryptBlob]; destruct (Decrypt _ _ _ _ _ _) as [[[v p] q]|e|]; try apply in_order_ok; try done.
  - destruct (decide _); [done|]. destruct (decide _); [done|apply in_order_ok].
  - destruct (decide _); [destruct i as [x|?]; [apply in_order_cons, IH|by apply suffix_cons_r]|].
    destruct (decide _); [|apply in_order_ok]. destruct i as [x|?]; [|by apply suffix_cons_r]. destruct (String.eqb x ""); [by apply suffix_cons_r|apply in_order_cons, IH].
Qed.
Lemma rd_pull_one P y s i u inp : ssh_in_order y → in_order (pull_one P y s i u inp) inp.
Proof.
  intros H. unfold pull_one. apply in_order_bind; [by apply rd_pullBlob|]. intros [host got] r.
  destruct got as [| |ct]; [apply in_order_ok..|]. apply in_order_bind; [apply rd_decryptBlob|]. intros [[[[p us] ps] pt]|] r1; [|apply in_order_ok].
  destruct (_ =? _); [apply in_order_ok|]. destruct (NewLog pt) as [l|e|]; [|apply in_order_ok|done].
  apply in_order_bind; [apply in_order_outcome|]. intros [] ?; apply in_order_ok.
Qed.
Lemma rd_pull_loop P y s l : ssh_in_order y → ∀ i inp, in_order (pull_loop P y s i l inp) inp.
Proof.
  intros H. induction l as [|u l IH]; intros i inp; cbn [pull_loop]; [apply in_order_ok|].
  apply in_order_bind; [by apply rd_pull_one|]. intros [[h k] o] r. apply in_order_bind; [apply IH|]. intros [[? ?] ?] ?. apply in_order_ok.
Qed.
Lemma rd_ask_delete_set inp : ∀ k, in_order (ask_delete_set inp k) inp.
Proof. induction inp as [|[l|e] inp IH]; intros k; [done| |by apply suffix_cons_r]. cbn [ask_delete_set]. destruct (_ || _); [|destruct (_ || _)]; apply in_order_cons, IH. Qed.
Lemma rd_ask_all ks : ∀ inp, in_order (ask_all ks inp) inp.
Proof.
  induction ks as [|k ks IH]; intros inp; cbn [ask_all]; [apply in_order_ok|].
  assert (in_order (match cf_kind k with ConflictKindRoot => ask_root inp k | ConflictKindDeleteSet => ask_delete_set inp k end) inp) as H.
  { destruct (cf_kind k); [apply rd_ask_delete_set|]. unfold ask_root. pose proof (rd_yesno inp) as H. destruct (getYesNo inp) as [[] r|e r| |]; done. }
  destruct (match cf_kind k with ConflictKindRoot => _ | ConflictKindDeleteSet => _ end) as [k' r|e r| |]; [|done..].
  specialize (IH r). destruct (ask_all ks r) as [ks'' r'|e r'| |]; [..|done|done]; cbn in *; by etrans.
Qed.
Lemma rd_merge_rounds a b fuel : ∀ cs inp, in_order (merge_rounds fuel a b cs inp) inp.
Proof.
  induction fuel as [|fuel IH]; intros cs inp; cbn [merge_rounds]; [done|]. destruct (TxMerge a b cs) as [[c|ks]|e|]; [apply in_order_ok| |apply in_order_err|done].
  pose proof (rd_ask_all ks inp) as H. destruct (ask_all ks inp) as [ks' r|e r| |]; [|done..]. eapply in_order_trans; [apply IH|done].
Qed.
Lemma rd_mergeLogs a b inp : in_order (mergeLogs a b inp) inp.
Proof. unfold mergeLogs. destruct b; [apply in_order_ok|apply rd_merge_rounds]. Qed.
Lemma rd_take_remote e k ma m r mg inp : in_order (take_remote e k ma m r mg inp) inp.
Proof.
  unfold take_remote. destruct (_ && _).
  - unfold take_single. apply in_order_bind; [apply in_order_outcome|]. intros key r1. destruct (decide _); [apply in_order_ok|].
    apply in_order_bind; [apply in_order_outcome|]. intros tl r2. apply in_order_bind; [apply in_order_outcome|]. intros tr r3.
    destruct (_ <? _)%Z; [apply in_order_ok|]. destruct (_ =? _)%Z; [apply rd_yesno|apply in_order_ok].
  - destruct (negb _); [apply in_order_outcome|]. destruct (decide _); [apply in_order_ok|apply in_order_outcome].
Qed.
Lemma rd_merge_parts e k ma l : ∀ m inp, in_order (merge_parts e k ma m l inp) inp.
Proof.
  induction l as [|r l IH]; intros m inp; cbn [merge_parts]; [apply in_order_ok|]. apply in_order_bind; [|intros; apply IH].
  unfold merge_one. apply in_order_bind; [apply rd_mergeLogs|]. intros mg r1. apply in_order_bind; [apply rd_take_remote|].
  intros [] r2; [apply in_order_outcome|apply in_order_ok].
Qed.
Lemma reads_attempt {A} (f : list input → ui A) : (∀ inp, in_order (f inp) inp) → reads (attempt f).
Proof. intros H s inp s' r. unfold attempt. specialize (H inp). destruct (f inp); intros [= <- <-]; done. Qed.
Lemma reads_prepare P y name psh : ssh_in_order y → reads (prepare P y name psh).
Proof.
  intros H. unfold prepare. apply reads_bind; [apply reads_on_db|]. intros [us|]; [|apply reads_ret].
  apply reads_bind; [apply reads_state|]. intros s. apply reads_bind; [apply reads_ask; intros ?; by apply rd_pull_loop|].
  intros [[hosts kept] parts]. apply reads_bind; [apply reads_attempt; intros ?; apply rd_merge_parts|].
  intros [mr|]; [|apply reads_ret]. apply reads_bind; [|intros _].
  { unfold adopt. rr. }
  apply reads_bind; [apply reads_on_db|intros _]. apply reads_if; [|apply reads_ret]. apply reads_bind; [unfold sealed; rr|]. intros ct. apply reads_ret.
Qed.
Lemma rd_push_loop y s ct l : ssh_in_order y → ∀ i inp ps r, push_loop y s i ct l inp = (ps, r) → in_order r inp.
Proof.
  intros H. induction l as [|u l IH]; intros i inp ps r; cbn [push_loop]; [intros [= <- <-]; apply in_order_ok|].
  pose proof (rd_pushBlob y i (entry_at s u) ct inp H) as Hp. destruct (pushBlob y i (entry_at s u) ct inp) as [[host oe] r1|e r1| |]; [|by intros [= <- <-]..].
  destruct (push_loop y s (S i) ct l r1) as [ps' x] eqn:E. apply IH in E. intros [= <- <-]. eapply in_order_trans; [|exact Hp].
  apply in_order_bind; [done|]. intros; apply in_order_ok.
Qed.
Lemma reads_sync P y name : ssh_in_order y → reads (sync_cmd P y name).
Proof.
  intros H s inp s' r. unfold sync_cmd, sync. destruct (prepare P y name true s inp) as [s1 r1] eqn:E. apply reads_prepare in E; [|done].
  destruct r1 as [[[ct kept]|] rest|e rest| |]; [|intros [= <- <-]; done..].
  destruct (push_loop y s1 0 ct kept rest) as [ps r2] eqn:E2. apply rd_push_loop in E2; [|done].
  destruct r2 as [hosts rest2|e rest2| |]; [|intros [= <- <-]; cbn in *; try done; by etrans..].
  destruct (on_db _ s1 rest2) as [s3 r3] eqn:E3. apply reads_on_db in E3. intros [= <- <-]. eapply in_order_trans; [done|]. cbn in *. by etrans.
Qed.

(** ** What is merged comes from one log or the other *)
Lemma push_check_from (Q : tx → Prop) res x s s' : push_check res x s = Ok s' → Q x → Forall Q (ms_c s) → Forall Q (ms_c s').
Proof.
  unfold push_check. cbv zeta. intros H Hx Hs. assert (Forall Q (ms_c s ++ [x])) as Hb by (by apply Forall_app_2; [|apply Forall_singleton]).
  destruct (ms_deleted s !! tx_uuid x) as [ind|].
  - destruct (_ !! ind); [|done]. destruct (res_find _ _) as [[]|]; try done; [by injection H as <-|]. destruct (conf_noted _ _); by injection H as <-.
  - destruct (negb _); [by injection H as <-|]. destruct (res_discard_initial _ _); by injection H as <-.
Qed.
Lemma push_rest_from (Q : tx → Prop) res l : ∀ s s', push_rest res l s = Ok s' → Forall Q l → Forall Q (ms_c s) → Forall Q (ms_c s').
Proof.
  induction l as [|x l IH]; intros s s'; cbn [push_rest]; [by intros [= <-]|]. destruct (push_check res x s) as [s1|e|] eqn:E; [|done|done].
  intros H Hl Hs. apply Forall_cons in Hl as [Hx Hl]. eapply IH; [exact H|done|]. by eapply push_check_from.
Qed.
Lemma root_check_c res i j x z s : ms_c (root_check res i j x z s) = ms_c s.
Proof. unfold root_check. destruct (_ && _); [|done]. cbv zeta. destruct (match res with [] => false | _ => _ end); done. Qed.
Lemma merge_loop_from (Q : tx → Prop) res a : ∀ b i j s s', merge_loop res a i b j s = Ok s' → Forall Q a → Forall Q b → Forall Q (ms_c s) → Forall Q (ms_c s').
Proof.
  induction a as [|x a IHa]; intros b.
  - intros i j s s'. rewrite merge_loop_nil_l. intros H _ Hb Hs. by eapply push_rest_from.
  - induction b as [|z b IHb]; intros i j s s' H Ha Hb Hs.
    + rewrite merge_loop_nil_r in H. by eapply push_rest_from.
    + rewrite merge_loop_cons in H. pose proof (Forall_inv Ha) as Hx. pose proof (Forall_inv_tail Ha) as Ha'. pose proof (Forall_inv Hb) as Hz. pose proof (Forall_inv_tail Hb) as Hb'.
      destruct (_ =? _)%Z.
      * eapply IHa; [exact H|done|done|]. cbn [ms_c]. by apply Forall_app_2; [|apply Forall_singleton].
      * cbv zeta in H. assert (Forall Q (ms_c (root_check res i j x z s))) as Hs' by by rewrite root_check_c.
        destruct (_ <? _)%Z; (destruct (push_check _ _ _) as [s1|e|] eqn:E; [|done|done]).
        -- eapply IHa; [exact H|done|done|]. by eapply push_check_from.
        -- eapply IHb; [exact H|done|done|]. by eapply push_check_from.
Qed.
Lemma TxMerge_from (Q : tx → Prop) a b res c : TxMerge a b res = Ok (Merged c) → Forall Q a → Forall Q b → Forall Q c.
Proof.
  unfold TxMerge. intros H Ha Hb. destruct (existsb _ _); [done|]. destruct (merge_fast a b) as [[]|e|]; [by injection H as <-| |done|done].
  destruct (merge_loop _ _ _ _ _ _) as [s|e|] eqn:E; [|done|done]. apply (merge_loop_from Q) in E; [|done|done|constructor].
  destruct (ms_conf s); [|done]. by injection H as <-.
Qed.
Lemma mergeLogs_from (Q : tx → Prop) a b inp c rest : mergeLogs a b inp = UOk c rest → Forall Q a → Forall Q b → Forall Q c.
Proof.
  unfold mergeLogs. destruct b as [|x b]; [intros H; by apply UOk_inj in H as [<- _]|]. generalize (S (length inp)) (@nil conflict). intros fuel. revert inp.
  induction fuel as [|fuel IH]; intros inp cs H Ha Hb; cbn [merge_rounds] in H; [done|].
  destruct (TxMerge a (x :: b) cs) as [[c'|ks]|e|] eqn:E; [| |done|done].
  - apply UOk_inj in H as [<- _]. by eapply TxMerge_from.
  - destruct (ask_all ks inp) as [ks' r|e r| |]; [|done..]. by eapply IH.
Qed.
Lemma merged_from (Q : tx → Prop) l ps c : merged_one_by_one l ps c → Forall Q l → (∀ p, p ∈ ps → Forall Q (b_log p)) → Forall Q c.
Proof.
  induction 1 as [l|l p ps inp rest l1 l' E _ IH]; intros Hl Hp; [done|]. apply IH; [|intros q Hq; apply Hp; by right].
  eapply mergeLogs_from; [exact E|done|]. apply Hp. by left.
Qed.

(** ** What a sync does, step by step *)
Lemma targets_weak y name d m d' us : holds d m → fair (y_env y 0) → targets y name d = (d', Ok (Some us)) →
  d' = fst (UpdateSnapshot d) ∧ ∀ u, u ∈ us → is_Some (m !! u).
Proof.
  intros Hh Hf. destruct (holds_update d m Hh) as (d1 & Hu & Hs & Hv & _ & Hh1). unfold targets. unfold mbind at 1, M_bind at 1. rewrite Hu. cbn [fst].
  destruct (String.eqb name "").
  - unfold mbind, M_bind, get_snap, mret, M_ret. rewrite Hs. intros [= <- <-]. split; [done|]. intros u Hin. unfold collectSyncs in Hin.
    apply elem_of_list_fmap in Hin as ([u' b] & -> & Hin). apply elem_of_list_filter in Hin as [_ Hin]. rewrite (Hf 0 m) in Hin.
    apply elem_of_map_to_list in Hin. by eexists.
  - unfold FindByName. unfold mbind, M_bind. destruct (holds_update d1 m Hh1) as (d2 & Hu2 & Hs2 & _ & _ & Hh2). rewrite Hu2.
    assert (d2 = d1) as ->. { destruct Hh as [Hc _]. rewrite (update_again d d1 Hc Hu) in Hu2. by injection Hu2 as <-. }
    unfold get_snap, lift, mret, M_ret. rewrite Hs. destruct (find_name name _) as [[[u b]|]|e|] eqn:E; [| |done|done]; [|done].
    destruct (String.eqb u ""); [done|]. intros [= <- <-]. split; [done|]. intros v Hv'. apply elem_of_list_singleton in Hv' as ->.
    apply wfind_name_in in E. rewrite (Hf _ m) in E. apply elem_of_map_to_list in E. by eexists.
Qed.

Lemma note_host_dom u h (hosts : gmap string string) l v : (∀ v, is_Some (hosts !! v) → v ∈ l) → is_Some (note_host u h hosts !! v) → v ∈ u :: l.
Proof.
  intros H. unfold note_host. destruct (String.eqb h ""); [intros Hv; right; by apply H|].
  destruct (decide (v = u)) as [->|Hne]; [left|]. rewrite lookup_insert_ne by done. intros Hv. right. by apply H.
Qed.
Lemma pull_loop_dom P y s l : ∀ i inp hosts kept parts rest, pull_loop P y s i l inp = UOk (hosts, kept, parts) rest →
  (∀ u, is_Some (hosts !! u) → u ∈ l) ∧ (∀ u, u ∈ kept → u ∈ l).
Proof.
  induction l as [|u l IH]; intros i inp hosts kept parts rest H; cbn [pull_loop] in H.
  - apply UOk_inj in H as [[= <- <- <-] <-]. split; [intros v [x Hx]; by rewrite lookup_empty in Hx|done].
  - apply ubind_ok in H as ([[h k] op] & inp1 & E1 & H). apply ubind_ok in H as ([[hs ks] qs] & inp2 & E2 & H).
    apply UOk_inj in H as [[= <- <- <-] <-]. destruct (IH _ _ _ _ _ _ E2) as [H1 H2]. split.
    + intros v. by apply note_host_dom.
    + intros v [Hv|Hv]%elem_of_app; [destruct k; [apply elem_of_list_singleton in Hv as ->; left|by apply elem_of_nil in Hv]|right; by apply H2].
Qed.
Lemma push_loop_dom y s ct l : ∀ i inp ps hosts rest, push_loop y s i ct l inp = (ps, UOk hosts rest) → ∀ u, is_Some (hosts !! u) → u ∈ l.
Proof.
  induction l as [|u l IH]; intros i inp ps hosts rest H; cbn [push_loop] in H.
  - injection H as <- <- <-. intros v [x Hx]. by rewrite lookup_empty in Hx.
  - destruct (pushBlob y i (entry_at s u) ct inp) as [[host oe] inp1|e r| |]; [|done..].
    destruct (push_loop y s (S i) ct l inp1) as [ps' x] eqn:E. destruct x as [hs r|e r| |]; [|done..]. cbn [ubind] in H. injection H as <- <- <-.
    intros v. apply note_host_dom. by eapply IH.
Qed.

(** A part that was pulled: where it comes from *)
Lemma Decrypt_nil P user pass key salt x : Decrypt P user pass key salt slice_nil ≠ Ok x.
Proof. unfold Decrypt. done. Qed.
Lemma pull_loop_parts P y s l : ∀ i inp hosts kept parts rest, pull_loop P y s i l inp = UOk (hosts, kept, parts) rest → ∀ p, p ∈ parts →
  ∃ ct v pt sl, pullable y ct ∧ Decrypt P (str_bytes (b_user p)) (str_bytes (b_pass p)) (opt_bytes (s_key s)) (s_salt s) ct = Ok (v, b_params p, pt) ∧
    NewLog pt = Ok sl ∧ b_log p = vis sl.
Proof.
  induction l as [|u l IH]; intros i inp hosts kept parts rest H; cbn [pull_loop] in H.
  - apply UOk_inj in H as [[= <- <- <-] <-]. intros p Hp. by apply elem_of_nil in Hp.
  - apply ubind_ok in H as ([[h k] op] & inp1 & E1 & H). apply ubind_ok in H as ([[hs ks] qs] & inp2 & E2 & H).
    apply UOk_inj in H as [[= <- <- <-] <-]. intros p [Hp|Hp]%elem_of_app; [|by eapply IH]. clear IH E2.
    destruct op as [p'|]; [|by apply elem_of_nil in Hp]. apply elem_of_list_singleton in Hp as ->.
    unfold pull_one in E1. apply ubind_ok in E1 as ([host got] & inp3 & Eb & E1). destruct got as [| |ct]; [by apply UOk_inj in E1 as [[=] _]..|].
    apply ubind_ok in E1 as (r & inp4 & Ed & E1). destruct r as [[[[params user] pass] pt]|]; [|by apply UOk_inj in E1 as [[=] _]].
    destruct (_ =? _); [by apply UOk_inj in E1 as [[=] _]|]. destruct (NewLog pt) as [sl|e|] eqn:En; [|by apply UOk_inj in E1 as [[=] _]|done].
    apply ubind_ok in E1 as (same & inp5 & _ & E1). destruct same; [by apply UOk_inj in E1 as [[=] _]|]. apply UOk_inj in E1 as [[= <- <- <-] <-].
    apply decrypt_typed in Ed as ([v Ed] & _). exists ct, v, pt, sl. cbn [b_user b_pass b_params b_log]. split; [|done].
    unfold pullBlob in Eb. destruct (y_scheme _ _) as [sch|]; [|done]. destruct (String.eqb sch syncSCP).
    + left. unfold pull_ui in Eb. destruct (y_ssh_pull _ _ _ _) as [[h g] r|e r| |] eqn:Ey; [|done..]. apply UOk_inj in Eb as [[= <- ->] <-]. eauto 10.
    + destruct (String.eqb sch syncFile).
      * right. apply UOk_inj in Eb as [[= <- Eb] <-]. eauto.
      * apply UOk_inj in Eb as [[= <- <-] <-]. by destruct (Decrypt_nil P (str_bytes user) (str_bytes pass) (opt_bytes (s_key s)) (s_salt s) (v, params, pt)).
Qed.

(** Every step of a sync that ends without an error *)
Definition synced (P : prims) (y : sync_world) (m : snapshot) (s : session) (inp : list input) (s' : session) (rest : list input) : Prop :=
  ∃ us hosts kept parts mr inp1 inp2 s1 d2 ct hosts2 ps,
    (∀ u, u ∈ us → is_Some (m !! u)) ∧
    pull_loop P y (caught_up s) 0 us inp = UOk (hosts, kept, parts) inp1 ∧
    mergeBlobs (y_env y 4) (caught_up s) parts inp1 = UOk mr inp2 ∧
    adopt mr (caught_up s) inp2 = (s1, UOk tt inp2) ∧
    saveHosts (y_env y 1) (y_hosts y 0 hosts) (s_db s1) = (d2, Ok tt) ∧
    push_loop y (set_db d2 s1) 0 ct kept inp2 = (ps, UOk hosts2 rest) ∧
    ∃ d3, saveHosts (y_env y 2) (y_hosts y 1 hosts2) d2 = (d3, Ok tt) ∧ s' = set_db d3 s1.
Lemma sync_steps P y name s inp s' rest m : holds (s_db s) m → fair (y_env y 0) → sync_cmd P y name s inp = (s', UOk tt rest) →
  s' = caught_up s ∨ synced P y m s inp s' rest.
Proof.
  intros Hh Hf H. unfold sync_cmd, sync in H. destruct (prepare P y name true s inp) as [s1 r1] eqn:Ep.
  destruct r1 as [out inp1|e inp1| |]; [|done..]. unfold prepare in Ep.
  apply C_inv in Ep as (s2 & ts & inp2 & E1 & Ep). unfold on_db in E1. destruct (targets y name (s_db s)) as [d ot] eqn:Et.
  destruct ot as [ts'|e|]; [|done|done]. cbn [of_outcome] in E1. injection E1 as <- <- <-.
  assert (d = fst (UpdateSnapshot (s_db s))) as Ed.
  { destruct (holds_update _ m Hh) as (d1 & Hu & Hs & Hv & _ & Hh1). unfold targets in Et. unfold mbind at 1, M_bind at 1 in Et. rewrite Hu in Et. rewrite Hu. cbn [fst].
    destruct (String.eqb name ""); [unfold mbind, M_bind, get_snap, mret, M_ret in Et; by injection Et as <- _|].
    unfold FindByName, mbind, M_bind in Et. destruct Hh as [Hc _]. rewrite (update_again _ d1 Hc Hu) in Et. unfold get_snap, lift, mret, M_ret in Et.
    destruct (find_name name _); by injection Et as <- _. }
  assert (set_db d s = caught_up s) as Ecu by (unfold caught_up; by rewrite Ed). rewrite Ecu in Ep.
  destruct ts' as [us|].
  2:{ unfold mret, C_ret in Ep. injection Ep as <- <- <-. injection H as <- <-. by left. }
  destruct (targets_weak _ _ _ _ _ _ Hh Hf Et) as [_ Hus].
  apply C_inv in Ep as (s3 & s4 & inp3 & E1 & Ep). unfold state in E1. injection E1 as <- <- <-.
  apply C_inv in Ep as (s3 & [[hosts kept] parts] & inp3 & E1 & Ep). unfold ask in E1. injection E1 as <- E1.
  apply C_inv in Ep as (s3 & mo & inp4 & E2 & Ep). unfold attempt in E2.
  destruct (mergeBlobs _ _ _ _) as [mr r2|e r2| |] eqn:Em; [| |done|done]; injection E2 as <- <- <-.
  2:{ unfold mret, C_ret in Ep. injection Ep as <- <- <-. injection H as <- <-. by left. }
  right. apply C_inv in Ep as (s3 & [] & r3 & E3 & Ep). pose proof E3 as E3'. apply adopt_inv in E3' as (_ & -> & _ & Hc).
  apply C_inv in Ep as (s4 & [] & r3 & E4 & Ep). unfold on_db in E4.
  destruct (saveHosts_grows (y_env y 1) (y_hosts y 0 hosts) (s_db s3) Hc) as (d2 & txs & ro & E & Hv & Hpt & Ht & Hok). rewrite E in E4.
  destruct ro as [[]|e|]; [|done|done]. cbn [of_outcome] in E4. injection E4 as <- <-. destruct (Hok eq_refl) as [Hh2 Hst].
  apply C_inv in Ep as (s4 & ct & r4 & E5 & Ep). unfold mret, C_ret in Ep. injection Ep as <- <- <-.
  destruct (sealed_inv _ _ _ _ _ _ _ E5) as (-> & _ & d3 & params & Emp & ->). cbn [s_db set_db] in Emp.
  apply steady_makeParams in Emp as ->; [|done]. change (set_db d2 (set_db d2 s3)) with (set_db d2 s3) in *.
  destruct (push_loop y (set_db d2 s3) 0 ct kept r2) as [ps x] eqn:El. destruct x as [hosts2 r5|e r5| |]; [|done..].
  unfold on_db in H. cbn [s_db set_db] in H. destruct (saveHosts (y_env y 2) _ d2) as [d4 ro] eqn:E6. destruct ro as [[]|e|]; [|done|done]. cbn [of_outcome] in H. injection H as <- <-.
  exists us, hosts, kept, parts, mr, inp3, r2, s3, d2, ct, hosts2, ps. split; [done|]. split; [exact E1|]. split; [done|]. split; [exact E3|]. split; [exact E|]. split; [exact El|].
  exists d4. by split.
Qed.

(** A sync that ends without an error leaves a store whose history can be
    replayed, made of the merged log and transactions about the remotes. *)
Definition merged_in (P : prims) (y : sync_world) (m : snapshot) (s : session) (s' : session) : Prop :=
  ∃ us hosts kept parts mr txs inp inp1 inp2, (∀ u, u ∈ us → is_Some (m !! u)) ∧
    pull_loop P y (caught_up s) 0 us inp = UOk (hosts, kept, parts) inp1 ∧
    mergeBlobs (y_env y 4) (caught_up s) parts inp1 = UOk mr inp2 ∧
    has_merged mr txs s s' ∧ (∀ t, t ∈ txs → tx_kind t = "setk" ∧ tx_key t = "knownhosts" ∧ tx_uuid t ∈ us) ∧ winv (s_db s').
Lemma synced_weak P y m s inp s' rest : fair_hosts y → synced P y m s inp s' rest → merged_in P y m s s'.
Proof.
  intros Hfh (us & hosts & kept & parts & mr & inp1 & inp2 & s1 & d2 & ct & hosts2 & ps & Hus & E1 & Em & Ea & Es & Ep & d3 & Es2 & ->).
  destruct (pull_loop_dom _ _ _ _ _ _ _ _ _ _ E1) as [Hd Hk]. pose proof (push_loop_dom _ _ _ _ _ _ _ _ _ Ep) as Hd2.
  apply adopt_inv in Ea as (Hm & _ & _ & Hc).
  destruct (saveHosts_grows (y_env y 1) (y_hosts y 0 hosts) (s_db s1) Hc) as (d2' & txs & ro & E & Hv & Hpt & Ht & Hok). rewrite Es in E. injection E as <- <-.
  destruct (Hok eq_refl) as [[Hc2 _] _]. clear Hok.
  destruct (saveHosts_grows (y_env y 2) (y_hosts y 1 hosts2) d2 Hc2) as (d3' & txs2 & ro & E & Hv2 & Hpt2 & Ht2 & Hok). rewrite Es2 in E. injection E as <- <-.
  destruct (Hok eq_refl) as [Hh3 _].
  exists us, hosts, kept, parts, mr, (txs ++ txs2), inp, inp1, inp2. split; [done|]. split; [exact E1|]. split; [exact Em|]. split; [|split].
  - destruct Hm as (A1 & A2 & A3 & A4 & A5 & A6 & A7 & A8 & A9 & A10 & A11). rewrite app_nil_r in A7.
    repeat split; try done; cbn [s_db set_db]; [by rewrite Hv2, Hv, A7, app_assoc|]. rewrite Hpt2, Hpt, A11. apply caught_up_log.
  - intros t [Hin|Hin]%elem_of_app.
    + destruct (Ht t Hin) as (? & ? & Hu). split; [done|]. split; [done|]. rewrite (Hfh 0 hosts) in Hu. apply elem_of_list_fmap in Hu as ([u h] & -> & Hu).
      apply elem_of_map_to_list in Hu. apply Hd. by exists h.
    + destruct (Ht2 t Hin) as (? & ? & Hu). split; [done|]. split; [done|]. rewrite (Hfh 1 hosts2) in Hu. apply elem_of_list_fmap in Hu as ([u h] & -> & Hu).
      apply elem_of_map_to_list in Hu. apply Hk, Hd2. by exists h.
  - by exists (snap_of d3).
Qed.
Lemma sync_weak P y name s inp s' rest m : holds (s_db s) m → fair (y_env y 0) → fair_hosts y → sync_cmd P y name s inp = (s', UOk tt rest) →
  s' = caught_up s ∨ merged_in P y m s s'.
Proof. intros Hh Hf Hfh H. destruct (sync_steps _ _ _ _ _ _ _ _ Hh Hf H) as [->|Hs]; [by left|right]. by eapply synced_weak. Qed.

Lemma parts_within P y s l i inp hosts kept parts rest R : remotes_within P y R → pull_loop P y s i l inp = UOk (hosts, kept, parts) rest →
  ∀ p, p ∈ parts → Forall (λ t, R (tx_uuid t)) (b_log p).
Proof.
  intros HR H p Hp. destruct (pull_loop_parts _ _ _ _ _ _ _ _ _ _ H p Hp) as (ct & v & pt & sl & Hct & Hd & Hn & ->).
  apply Forall_forall. intros t Ht. apply (HR (vis sl)); [|by apply elem_of_list_In, elem_of_list_In in Ht]. exists ct, (b_params p), pt, sl.
  split; [done|]. split; [|done]. by eexists _, _, _, _, _.
Qed.
(** The store stays in order, and about the entries known or those of the remotes. *)
Lemma sync_steady P y name s inp s' rest (U R : string → Prop) : fair (y_env y 0) → fair_hosts y → remotes_within P y R →
  settled U s → sync_cmd P y name s inp = (s', UOk tt rest) → settled (λ u, U u ∨ R u) s'.
Proof.
  intros Hf Hfh HR (H0 & [m Hm] & Hu) E. destruct (sync_weak _ _ _ _ _ _ _ _ Hm Hf Hfh E) as [->|H].
  - destruct (caught_up_log s) as [El Ep]. split; [congruence|]. rewrite El. split; [|intros t Ht; left; by apply Hu].
    destruct (holds_update _ m Hm) as (d1 & Hupd & _ & _ & _ & Hh1). unfold caught_up. cbn [s_db set_db]. rewrite Hupd. by exists m.
  - destruct H as (us & hosts & kept & parts & mr & txs & inp1 & inp2 & inp3 & Hus & Ep & Em & Hme & Htx & Hw).
    pose proof Hme as (_ & _ & _ & _ & _ & _ & Hv & _ & _ & _ & Htp). split; [by rewrite Htp|]. split; [done|].
    apply mergeBlobs_ok in Em as [Em _]. apply (merged_from (λ t, U (tx_uuid t) ∨ R (tx_uuid t))) in Em.
    + rewrite Hv. intros t [Ht|Ht]%elem_of_app; [by apply (proj1 (Forall_forall _ _) Em)|]. left. destruct (Htx t Ht) as (_ & _ & Hin).
      destruct (Hus _ Hin) as [b Hb]. destruct Hm as [_ Hr]. destruct (replays_mentions _ _ _ _ Hr Hb) as (t' & Ht' & <-). by apply Hu.
    + rewrite (proj1 (caught_up_log s)). apply Forall_forall. intros t Ht. left. apply Hu. done.
    + intros p Hp. eapply Forall_impl; [by eapply parts_within|]. cbn. tauto.
Qed.
