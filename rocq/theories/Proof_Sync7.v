(** Proofs about syncing: all or nothing, two machines that end up the same,
    further concrete runs. *)
From Verif Require Import Spec_Sync Spec_Merge Proof_Sync Proof_Sync2 Proof_Sync3 Proof_Sync4 Proof_Sync5 Proof_Sync6 Proof_TxLog Proof_GoStr Proof_Utf8 Proof_Blobs Proof_Blobs2 Proof_Merge Proof_Merge3 Proof_Merge4 Proof_Crypt7 Proof_Session Proof_Session3 Proof_Session5 Proof_Session6 Proof_SessionEx.
From Coq Require Import Lia.
From stdpp Require Import options.
Import Model_GoStr.
#[local] Open Scope nat_scope.

(** ** Either the logs were merged or nothing happened *)
Lemma sync_or_nothing P w name psh s inp s' ps r m : holds (s_db s) m → all_named m → fair (y_env w 0) →
  sync P w name psh s inp = (s', ps, r) →
  (ps = [] ∧ same_session s s' ∧ holds (s_db s') m) ∨
  ∃ us rs inp1 mr inp2, about_remotes w name m us ∧ pulls P w (caught_up s) 0 us inp rs inp1 ∧
    mergeBlobs (y_env w 4) (caught_up s) (opened_parts rs) inp1 = UOk mr inp2.
Proof.
  intros Hh Ha Hf H. assert (holds (s_db (caught_up s)) m) as Hhc.
  { unfold caught_up. cbn [s_db set_db]. destruct (holds_update _ _ Hh) as (d1 & E1 & _ & _ & _ & Hd1). by rewrite E1. }
  assert (∀ q, (caught_up s, [] : list push, q) = (s', ps, r) → ps = [] ∧ same_session s s' ∧ holds (s_db s') m) as Hq.
  { intros q [= <- <- <-]. split; [done|]. split; [apply caught_up_same|done]. }
  destruct (targets_spec w name (s_db s) m Hh Ha Hf) as (ts & Et & Hts).
  unfold sync, prepare in H.
  rewrite (C_ok _ _ _ _ (caught_up s) ts inp) in H by (unfold on_db; by rewrite Et).
  destruct ts as [us|]; [|left; exact (Hq _ H)].
  rewrite (C_ok _ _ _ _ (caught_up s) (caught_up s) inp) in H by done.
  destruct (pull_loop P w (caught_up s) 0 us inp) as [[[hosts kept] parts] inp1|e r1| |] eqn:Ep.
  - destruct (pull_loop_about P w name m s us inp hosts kept parts inp1 Hh Hts Ep) as (rs & Hp & -> & -> & ->).
    rewrite (C_ok _ _ _ _ (caught_up s) (new_hosts us rs, receivers us rs, opened_parts rs) inp1) in H by (unfold ask; by rewrite Ep).
    unfold mbind at 1, C_bind at 1, attempt in H. destruct (mergeBlobs _ _ _ _) as [mr inp2|e r2| |] eqn:Em.
    + right. by exists us, rs, inp1, mr, inp2.
    + left. exact (Hq _ H).
    + left. exact (Hq _ H).
    + left. exact (Hq _ H).
  - left. unfold mbind at 1, C_bind at 1, ask in H. rewrite Ep in H. exact (Hq _ H).
  - left. unfold mbind at 1, C_bind at 1, ask in H. rewrite Ep in H. exact (Hq _ H).
  - left. unfold mbind at 1, C_bind at 1, ask in H. rewrite Ep in H. exact (Hq _ H).
Qed.

(** ** Nothing new *)
Lemma same_log_sync P w name s sr inp m mr u url f sp e ord riv0 riv pass :
  prims_ok P → good (s_db s) m → well_named m → s_readOnly s = false → single_session P s pass →
  fair (y_env w 0) → fair_hosts w → y_iv w = Some riv → length riv = 40 →
  name ≠ "" → u ≠ "" → called m u name → at_file w m u url →
  good (s_db sr) mr → s_readOnly sr = false → single_session P sr pass → s_salt sr = s_salt s →
  length riv0 = 40 → saveBlob P e ord (Some riv0) sr = (sr, Ok (Some f)) → y_read w 0 url = Pulled (mk_slice f sp) →
  alike (vis (db_log (s_db sr))) (vis (db_log (s_db s))) →
  ∃ s', sync P w name true s inp = (s', [], UOk tt inp) ∧ has_merged (merge_start s) [] s s' ∧ good (s_db s') m.
Proof.
  intros HP Hg Hw Hro Hss Hf Hfh Hiv Hliv Hn Hu Hc Hat Hgr Hror Hssr Hsalt Hlr Hsv Hrd Hal.
  assert (vis (db_log (s_db s)) ≠ []) as Hne1.
  { destruct Hc as (b & Hb & _). destruct Hg as [[_ Hr] _]. intros E. rewrite E in Hr. apply replays_empty_log in Hr as ->. by rewrite lookup_empty in Hb. }
  assert (s_key sr = s_key s) as Hkey.
  { destruct Hss as (_ & -> & _), Hssr as (_ & -> & _). by rewrite Hsalt. }
  pose proof (file_is P w s m u url 0 inp sr mr e ord riv0 f sp pass HP (proj1 Hg) Hne1 Hat Hgr Hror Hssr Hkey Hsalt Hlr Hsv Hrd) as Hfi.
  rewrite decide_True in Hfi by done.
  assert (pulls P w (caught_up s) 0 [u] inp [("", LeftAlone)] inp) as Hp by (econstructor; [done|constructor]).
  pose proof Hg as (Hh & Htp & Hu8 & Hi64 & Hlen1).
  assert (mergeBlobs (y_env w 4) (caught_up s) (opened_parts [("", LeftAlone)]) inp = UOk (merge_start s) inp) as Hmb.
  { unfold mergeBlobs, opened_parts. cbn [omap list_omap merge_parts]. unfold merge_start. by rewrite (proj1 (caught_up_log s)). }
  destruct (single_sync P w name s inp m [u] [("", LeftAlone)] inp (merge_start s) inp m pass riv) as (s2 & ct & Ep & Hm & Hs2 & Hg2 & Hst & Hss2 & Hsv2 & Hld); try done.
  { rewrite (targets_named w name (s_db s) m u) by done. done. }
  { by apply about_named. }
  { apply Hh. }
  { apply Hss. }
  { apply Hss. }
  { apply Hss. }
  { apply Hss. }
  exists s2. unfold sync. rewrite Ep. cbn [receivers push_loop].
  rewrite fair_no_hosts by done. unfold on_db. rewrite saveHosts_nil by done. cbn [of_outcome]. by destruct s2.
Qed.

(** ** Two machines share a file and sync one after the other *)
Lemma both_agree P wa wb namea nameb a b inpa inpb ma mb ua ub urla urla2 urlb urlb2 f sp spb e ord riv0 riva rivb pass c m :
  prims_ok P →
  (* two sessions with the same passphrase and salt *)
  good (s_db a) ma → well_named ma → s_readOnly a = false → single_session P a pass →
  good (s_db b) mb → well_named mb → s_readOnly b = false → single_session P b pass → s_salt b = s_salt a →
  (* histories that belong together *)
  valid_log (vis (db_log (s_db a))) → valid_log (vis (db_log (s_db b))) → compatible (vis (db_log (s_db a))) (vis (db_log (s_db b))) →
  is_union (vis (db_log (s_db a))) (vis (db_log (s_db b))) c → conflict_free c → same_root (vis (db_log (s_db a))) (vis (db_log (s_db b))) →
  ¬ alike (vis (db_log (s_db b))) (vis (db_log (s_db a))) → valid_log c → replays c m → (Z.of_nat (length c) < 2 ^ 64)%Z →
  (* the worlds *)
  fair (y_env wa 0) → fair_hosts wa → y_iv wa = Some riva → length riva = 40 →
  fair (y_env wb 0) → fair_hosts wb → y_iv wb = Some rivb → length rivb = 40 →
  (* both have an entry for the file *)
  namea ≠ "" → ua ≠ "" → called ma ua namea → at_file wa ma ua urla → at_file wa m ua urla2 →
  nameb ≠ "" → ub ≠ "" → called mb ub nameb → at_file wb mb ub urlb → at_file wb m ub urlb2 →
  (* the file is the one [b] wrote, and [b] then finds what [a] wrote *)
  length riv0 = 40 → saveBlob P e ord (Some riv0) b = (b, Ok (Some f)) → y_read wa 0 urla = Pulled (mk_slice f sp) →
  (∀ ct, saveBlob P (y_env wa 3) (y_ord wa) (Some riva) (fst (fst (sync P wa namea true a inpa))) = (fst (fst (sync P wa namea true a inpa)), Ok (Some ct)) →
    y_read wb 0 urlb = Pulled (mk_slice ct spb)) →
  ∃ a' b' ct ps, sync P wa namea true a inpa = (a', [mk_push ua urla2 ct (y_write wa 0 urla2 ct)], UOk tt inpa) ∧
    sync P wb nameb true b inpb = (b', ps, UOk tt inpb) ∧
    vis (db_log (s_db a')) = c ∧ vis (db_log (s_db b')) = c ∧ good (s_db a') m ∧ good (s_db b') m ∧
    (ps = [] ∨ ∃ ct2, ps = [mk_push ub urlb2 ct2 (y_write wb 0 urlb2 ct2)]).
Proof.
  intros HP Hga Hwa Hroa Hssa Hgb Hwb Hrob Hssb Hsalt Va Vb Hco Hun Hcf Hroot Hal Vc Hr Hlen Hfa Hfha Hiva Hliva Hfb Hfhb Hivb Hlivb Hna Hua Hca Hata Hata2 Hnb Hub Hcb Hatb Hatb2 Hl0 Hsv Hrda Hrdb.
  assert (vis (db_log (s_db b)) ≠ []) as Hneb.
  { destruct Hcb as (x & Hx & _). destruct Hgb as [[_ Hrb] _]. intros E. rewrite E in Hrb. apply replays_empty_log in Hrb as ->. by rewrite lookup_empty in Hx. }
  destruct (shared_sync P wa namea a b inpa ma mb ua urla f sp e ord riv0 riva pass c m urla2) as (a' & ct & Ea & Hma & Hgm & Hssa' & Hsva & _); try done.
  rewrite Ea in Hrdb. cbn [fst] in Hrdb. specialize (Hrdb ct Hsva).
  assert (vis (db_log (s_db a')) = c) as Hva by (destruct Hma as (_ & _ & _ & _ & _ & _ & Hv & _); by rewrite app_nil_r in Hv).
  assert (s_readOnly a' = false) as Hroa' by (destruct Hma as (_ & _ & _ & _ & _ & _ & _ & _ & Hv & _); by rewrite Hv).
  assert (s_salt a' = s_salt b) as Hsalt' by (destruct Hma as (_ & _ & _ & Hv & _); by rewrite Hv, Hsalt).
  destruct (alike_dec c (vis (db_log (s_db b)))) as [Hab|Hab].
  - assert (vis (db_log (s_db b)) = c) as Hbc.
    { apply sorted_subset_length; [apply Vb|apply Vc| |by destruct Hab]. intros x Hx. apply Hun. by right. }
    destruct (same_log_sync P wb nameb b a' inpb mb m ub urlb ct spb (y_env wa 3) (y_ord wa) riva rivb pass) as (b' & Eb & Hmb & Hgb'); try done.
    { by rewrite Hva. }
    exists a', b', ct, []. split; [done|]. split; [done|]. split; [done|].
    assert (vis (db_log (s_db b')) = c) as Hvb by (destruct Hmb as (_ & _ & _ & _ & _ & _ & Hv & _); rewrite app_nil_r in Hv; by rewrite Hv).
    split; [done|]. split; [done|]. split; [|by left].
    destruct Hgb as [[_ Hrb] _]. rewrite Hbc in Hrb. by rewrite (replays_det _ _ _ Hrb Hr) in Hgb'.
  - destruct (shared_sync P wb nameb b a' inpb mb m ub urlb ct spb (y_env wa 3) (y_ord wa) riva rivb pass c m urlb2) as (b' & ct2 & Eb & Hmb & Hgb' & _); try done.
    + by rewrite Hva.
    + rewrite Hva. split.
      * intros x y Hx Hy. apply Hco; rewrite elem_of_app in *; [destruct Hx as [Hx|Hx%Hun]|destruct Hy as [Hy|Hy%Hun]]; tauto.
      * intros x y Hx Hy. apply Hco; rewrite elem_of_app in *; [destruct Hx as [Hx|Hx%Hun]|destruct Hy as [Hy|Hy%Hun]]; tauto.
    + rewrite Hva. split; [apply Vc|]. intros x. split; [by right|]. intros [Hx|Hx]; [apply Hun; by right|done].
    + rewrite Hva. apply same_root_sym. by apply (union_same_root (vis (db_log (s_db a))) (vis (db_log (s_db b)))); [apply Va|apply Vb| |].
    + rewrite Hva. intros ->. destruct (vis (db_log (s_db b))) as [|x l]; [done|]. apply (not_elem_of_nil x), Hun. right. left.
    + by rewrite Hva.
    + exists a', b', ct, [mk_push ub urlb2 ct2 (y_write wb 0 urlb2 ct2)]. split; [done|]. split; [done|]. split; [done|].
      split; [destruct Hmb as (_ & _ & _ & _ & _ & _ & Hv & _); by rewrite app_nil_r in Hv|]. split; [done|]. split; [done|]. right. by exists ct2.
Qed.

(** ** Concrete runs *)
#[local] Opaque saveBlob sy_file key_of.
Definition sy_log_q : list tx := sy_log ++ [mk_tx 21 "setk" "s1" "user" "adm"].
Definition sy_m_q : snapshot := <["s1" := <["user" := "adm"]> sy_b1]> sy_m.
Definition sy_log_pq : list tx := sy_log ++ [mk_tx 20 "setk" "s2" "user" "root"; mk_tx 21 "setk" "s1" "user" "adm"].
Definition sy_m_pq : snapshot := <["s1" := <["user" := "adm"]> sy_b1]> sy_m_p.
Lemma sy_good_q : good (db_of sy_log_q) sy_m_q. Proof. sy_good. Qed.
Lemma sy_named_with u b k v : sy_m !! u = Some b → k ≠ "name" → well_named (<[u := <[k := v]> b]> sy_m).
Proof.
  intros Hb Hk. assert (∀ u' n, called (<[u := <[k := v]> b]> sy_m) u' n → called sy_m u' n) as H.
  { intros u' n (b' & Hb' & Hn). apply lookup_insert_Some in Hb' as [[<- <-]|[_ Hb']]; [|by exists b'].
    rewrite lookup_insert_ne in Hn by done. by exists b. }
  destruct sy_named as [Ha Hu]. split.
  - intros u' b' Hb'. apply lookup_insert_Some in Hb' as [[<- <-]|[_ Hb']]; [|by eapply Ha].
    destruct (Ha _ _ Hb) as (n & Hn). exists n. by rewrite lookup_insert_ne by done.
  - intros u1 u2 n H1 H2. exact (Hu _ _ _ (H _ _ H1) (H _ _ H2)).
Qed.
Definition sy_wa : sync_world := sy_world (λ _, Pulled (mk_slice (sy_file sy_log_q) [])).
Definition sy_a2 : session := fst (fst (sync toy sy_wa "first" true (sy_session sy_log_p) [])).
Definition sy_wb : sync_world := sy_world (λ _, match snd (saveBlob toy se_env map_to_list (Some se_iv) sy_a2) with Ok (Some f) => Pulled (mk_slice f []) | _ => NotFound end).
Lemma agree_run : ∃ a' b' ct ps, sync toy sy_wa "first" true (sy_session sy_log_p) [] = (a', [mk_push "s1" "file:///a" ct None], UOk tt []) ∧
  sync toy sy_wb "second" true (sy_session sy_log_q) [] = (b', ps, UOk tt []) ∧ vis (db_log (s_db a')) = sy_log_pq ∧ vis (db_log (s_db b')) = sy_log_pq.
Proof.
  assert (sy_m_p !! "s1" = Some sy_b1) as P1 by (unfold sy_m_p; rewrite lookup_insert_ne by done; apply sy_s1).
  assert (sy_m_q !! "s2" = Some sy_b2) as Q2 by (unfold sy_m_q; rewrite lookup_insert_ne by done; apply sy_s2).
  assert (sy_m_pq !! "s1" = Some (<["user" := "adm"]> sy_b1)) as PQ1 by apply lookup_insert.
  assert (sy_m_pq !! "s2" = Some (<["user" := "root"]> sy_b2)) as PQ2 by (unfold sy_m_pq; rewrite lookup_insert_ne by done; apply lookup_insert).
  destruct (both_agree toy sy_wa sy_wb "first" "second" (sy_session sy_log_p) (sy_session sy_log_q) [] [] sy_m_p sy_m_q "s1" "s2" "file:///a" "file:///a" "file:///b" "file:///b"
    (sy_file sy_log_q) [] [] se_env map_to_list se_iv se_iv se_iv se_pass sy_log_pq sy_m_pq) as (a' & b' & ct & ps & E1 & E2 & V1 & V2 & _).
  all: lazymatch goal with
    | |- prims_ok _ => apply toy_ok
    | |- good _ sy_m_p => apply sy_good_p
    | |- good _ sy_m_q => apply sy_good_q
    | |- well_named sy_m_p => apply sy_named_with; [apply sy_s2|done]
    | |- well_named sy_m_q => apply sy_named_with; [apply sy_s1|done]
    | |- single_session _ _ _ => apply sy_single
    | |- fair _ => apply se_fair
    | |- fair_hosts _ => apply sy_fair_hosts
    | |- valid_log _ => apply valid_b_ok; vm_compute; reflexivity
    | |- compatible _ _ => apply compat_b_ok; vm_compute; reflexivity
    | |- is_union _ _ _ => apply union_b_ok; vm_compute; reflexivity
    | |- conflict_free _ => apply no_del_free; repeat (constructor; [done|]); constructor
    | |- same_root _ _ => by intros x y [= <-] [= <-]
    | |- ¬ alike _ _ => by intros (_ & _ & [=])
    | |- replays _ _ => apply replay_fn_ok; compute_dec
    | |- called _ _ _ => eexists; split; [eassumption|done]
    | |- at_file _ _ _ _ => split; [eexists; split; [eassumption|done]|done]
    | |- saveBlob _ _ _ _ _ = _ => apply (sy_saved _ sy_m_q), sy_good_q
    | |- ex _ => idtac
    | |- ∀ _, _ => idtac
    | |- _ => done
    end.
  - intros ct H. change (fst (fst (sync toy sy_wa "first" true (sy_session sy_log_p) []))) with sy_a2 in H.
    change (y_read sy_wb 0 "file:///b") with (match snd (saveBlob toy se_env map_to_list (Some se_iv) sy_a2) with Ok (Some f) => Pulled (mk_slice f []) | _ => NotFound end).
    assert (∀ x : session * outcome (option bytes), x = (sy_a2, Ok (Some ct)) →
      (match snd x with Ok (Some f) => Pulled (mk_slice f []) | _ => NotFound end) = Pulled (mk_slice ct [])) as HX by (intros x ->; reflexivity).
    apply HX, H.
  - exists a', b', ct, ps. split; [exact E1|]. split; [exact E2|]. split; [exact V1|exact V2].
Qed.

Definition sy_m_other : snapshot := {["x" := <["name" := "other"]> ∅]}.
Lemma sy_good_other : good (db_of sy_other) sy_m_other. Proof. sy_good. Qed.
Lemma refused_run : sync toy (sy_world (λ _, Pulled (mk_slice (sy_file sy_other) []))) "first" true (sy_session sy_log) [ILine "no"] =
  (caught_up (sy_session sy_log), [], UOk tt []).
Proof.
  set (w := sy_world _). set (s := sy_session sy_log). set (p := mk_part "" se_pass (single_params (s_key s) (s_salt s) se_iv) sy_other).
  assert (vis (db_log (s_db s)) ≠ []) as Hne by done.
  assert (remote_is toy w (caught_up s) 0 "s1" [ILine "no"] "" (Opened p) [ILine "no"]) as H1.
  { pose proof (file_is toy w s sy_m "s1" "file:///a" 0 [ILine "no"] (sy_session sy_other) sy_m_other se_env map_to_list se_iv (sy_file sy_other) [] se_pass toy_ok (proj1 sy_good_0) Hne) as H.
    rewrite decide_False in H by (by intros [H2 _]).
    apply H; [split; [exists sy_b1; split; [apply sy_s1|done]|done]|apply sy_good_other|done|apply sy_single|done|done|done|apply (sy_saved _ sy_m_other), sy_good_other|done]. }
  apply (sync_aborted _ _ _ _ _ _ sy_m ["s1"] [("", Opened p)] [ILine "no"] (EMsg "sync target was a total fork")).
  - apply sy_good_0.
  - apply (targets_named w "first" (s_db s) sy_m "s1"); [apply sy_good_0|apply sy_named|apply se_fair|done| |done]. exists sy_b1. split; [apply sy_s1|done].
  - apply about_named; [done| |done]. exists sy_b1. split; [apply sy_s1|done].
  - econstructor; [exact H1|constructor].
  - change (opened_parts [("", Opened p)]) with [p]. rewrite merge_same_key by done. rewrite (proj1 (caught_up_log s)). subst p. cbn [b_log].
    vm_compute. reflexivity.
Qed.
