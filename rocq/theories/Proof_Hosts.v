(** Proofs about the ssh host check. *)
From Verif Require Import Spec_Hosts Proof_GoStr Proof_TxLog Proof_Blobs.
From stdpp Require Import options.

Lemma parts_split c text ps : parts c text ps ↔ ps = split_on c text.
Proof.
  split.
  - intros (H1 & H2 & ->). by rewrite split_join.
  - intros ->. split; [apply split_on_ne|]. split; [intros p; apply split_lacks|]. by rewrite join_split.
Qed.

(** what the loop looks at *)
Lemma for_host_split hostname l : for_host hostname l ↔ default "" (split_on (Zbyte 32) l !! 0%nat) = hostname.
Proof.
  split.
  - intros (ws & H%parts_split). by rewrite <-H.
  - intros H. destruct (split_on (Zbyte 32) l) as [|w ws] eqn:E; [by apply split_on_ne in E|].
    exists ws. apply parts_split. cbn in H. by subst.
Qed.
Lemma scan_skip hostname ty hash before rest :
  (∀ x, x ∈ before → ¬ for_host hostname x) → known_scan hostname ty hash (before ++ rest) = known_scan hostname ty hash rest.
Proof.
  induction before as [|x before IH]; intros H; [done|]. cbn [app known_scan]. cbv zeta.
  destruct (String.eqb_spec (default "" (split_on (Zbyte 32) x !! 0%nat)) hostname) as [E|E].
  - exfalso. apply (H x); [left|]. by apply for_host_split.
  - cbn [negb]. apply IH. intros y Hy. apply H. by right.
Qed.
Lemma scan_unknown hostname ty hash ls : (∀ x, x ∈ ls → ¬ for_host hostname x) ↔ known_scan hostname ty hash ls = None.
Proof.
  split.
  - intros H. rewrite <-(app_nil_r ls). by rewrite scan_skip.
  - induction ls as [|x ls IH]; intros H y Hy; [by apply elem_of_nil in Hy|]. cbn [known_scan] in H. cbv zeta in H.
    destruct (String.eqb_spec (default "" (split_on (Zbyte 32) x !! 0%nat)) hostname) as [E|E]; [done|]. cbn [negb] in H.
    apply elem_of_cons in Hy as [->|Hy]; [by rewrite for_host_split|by apply IH].
Qed.
Lemma scan_first known hostname l ty hash : first_for known hostname l →
  known_scan hostname ty hash (split_on (Zbyte 10) known) = known_scan hostname ty hash [l].
Proof.
  intros (before & after & H%parts_split & Hf & Hb). rewrite <-H, scan_skip by done. cbn [known_scan]. cbv zeta.
  apply for_host_split in Hf. rewrite Hf, String.eqb_refl. done.
Qed.
Lemma scan_find hostname ls : (∀ x, x ∈ ls → ¬ for_host hostname x) ∨
  ∃ before l after, ls = before ++ l :: after ∧ for_host hostname l ∧ ∀ x, x ∈ before → ¬ for_host hostname x.
Proof.
  induction ls as [|x ls IH]; [left; intros y Hy; by apply elem_of_nil in Hy|].
  destruct (decide (default "" (split_on (Zbyte 32) x !! 0%nat) = hostname)) as [E|E].
  - right. exists [], x, ls. split; [done|]. split; [by apply for_host_split|]. intros y Hy. by apply elem_of_nil in Hy.
  - destruct IH as [IH|(before & l & after & -> & Hl & Hb)].
    + left. intros y Hy. apply elem_of_cons in Hy as [->|Hy]; [by rewrite for_host_split|by apply IH].
    + right. exists (x :: before), l, after. split; [done|]. split; [done|].
      intros y Hy. apply elem_of_cons in Hy as [->|Hy]; [by rewrite for_host_split|by apply Hb].
Qed.

Lemma scan_words hostname ty hash l ws : words_of l (hostname :: ws) →
  known_scan hostname ty hash [l] = Some (
    t ← val (hostname :: ws) 2;
    if negb (String.eqb t ty) then Fail (EMsg "known host's key type has changed, could be a mitm attack")
    else
      h ← val (hostname :: ws) 3;
      if negb (String.eqb h hash) then Fail (EMsg "known host's key has changed, could be a mitm attack")
      else Ok tt).
Proof. intros H%parts_split. cbn [known_scan]. cbv zeta. rewrite <-H. cbn [lookup list_lookup default]. unfold default, id. by rewrite String.eqb_refl. Qed.

(** ** The four cases *)

Lemma host_cases known hostname ty hash :
  (∃ l, first_for known hostname l ∧ (same_key hostname ty hash l ∨ other_key hostname ty hash l ∨ no_key hostname ty l)) ∨
  unknown_host known hostname.
Proof.
  destruct (scan_find hostname (split_on (Zbyte 10) known)) as [H|(before & l & after & E & (ws & Hl) & Hb)].
  - right. exists (split_on (Zbyte 10) known). split; [by apply parts_split|done].
  - left. exists l. split.
    + exists before, after. split; [by apply parts_split|]. split; [by exists ws|done].
    + destruct ws as [|addr [|t more]].
      * right; right. exists []. split; [done|]. left. cbn. lia.
      * right; right. exists [addr]. split; [done|]. left. cbn. lia.
      * destruct (decide (t = ty)) as [->|Ht]; [|right; left; exists addr, t, more; auto].
        destruct more as [|h more]; [right; right; exists [addr; ty]; eauto|].
        destruct (decide (h = hash)) as [->|Hh]; [left; by exists addr, more|].
        right; left. exists addr, ty, (h :: more). split; [done|]. right. by exists h, more.
Qed.

Section Cases.
  Context (known hostname addr ty hash : string) (inp : list input).
  #[local] Set Default Proof Using "All".
  Lemma same_accepted l : first_for known hostname l → same_key hostname ty hash l →
    host_callback known hostname addr ty hash inp = UOk None inp.
  Proof.
    intros Hf (a & more & Hw). unfold host_callback. rewrite (scan_first _ _ l) by done. rewrite (scan_words _ _ _ _ _ Hw).
    cbn. by rewrite !String.eqb_refl.
  Qed.
  Lemma other_refused l : first_for known hostname l → other_key hostname ty hash l →
    ∃ e, host_callback known hostname addr ty hash inp = UErr e inp.
  Proof.
    intros Hf (a & t & more & Hw & Ht). unfold host_callback. rewrite (scan_first _ _ l) by done. rewrite (scan_words _ _ _ _ _ Hw).
    cbn. destruct (String.eqb_spec t ty) as [->|]; cbn; [|eauto].
    destruct Ht as [|(h & more' & -> & Hh)]; [done|]. cbn. rewrite (proj2 (String.eqb_neq _ _) Hh). cbn. eauto.
  Qed.
  Lemma short_panics l : first_for known hostname l → no_key hostname ty l →
    host_callback known hostname addr ty hash inp = UPanic.
  Proof.
    intros Hf (ws & Hw & Hs). unfold host_callback. rewrite (scan_first _ _ l) by done. rewrite (scan_words _ _ _ _ _ Hw).
    destruct Hs as [Hs|(a & ->)].
    - destruct ws as [|? [|? ?]]; [done|done|cbn in Hs; lia].
    - cbn. by rewrite String.eqb_refl.
  Qed.
  Lemma unknown_asks : unknown_host known hostname →
    host_callback known hostname addr ty hash inp =
    match inp with
    | [] => UWait
    | IErr e :: rest => UErr e rest
    | ILine s :: rest =>
        if String.eqb s "y" || String.eqb s "Y" then UOk (Some (hostLine hostname addr ty hash)) rest
        else UErr (EMsg "user rejected host") rest
    end.
  Proof.
    intros (ls & H%parts_split & Hn). unfold host_callback. rewrite <-H.
    rewrite (proj1 (scan_unknown _ _ _ _) Hn). by destruct inp as [|[?|?] ?].
  Qed.
End Cases.

(** A remembered key is accepted from then on. *)
Lemma hostLine_words hostname addr ty hash : lacks (Zbyte 32) hostname → lacks (Zbyte 32) addr → lacks (Zbyte 32) ty → lacks (Zbyte 32) hash →
  words_of (hostLine hostname addr ty hash) [hostname; addr; ty; hash].
Proof.
  intros H1 H2 H3 H4. split; [done|]. split; [|done].
  intros p Hp. repeat (apply elem_of_cons in Hp as [->|Hp]; [done|]). by apply elem_of_nil in Hp.
Qed.
Lemma hostLine_lacks hostname addr ty hash : lacks (Zbyte 10) hostname → lacks (Zbyte 10) addr → lacks (Zbyte 10) ty → lacks (Zbyte 10) hash →
  lacks (Zbyte 10) (hostLine hostname addr ty hash).
Proof.
  intros H1 H2 H3 H4. unfold hostLine. rewrite !lacks_app. cbn. repeat split; try done; discriminate.
Qed.
Lemma add_line_lines known line : lacks (Zbyte 10) line →
  split_on (Zbyte 10) (add_line known line) = (if String.eqb known "" then [] else split_on (Zbyte 10) known) ++ [line].
Proof.
  intros Hl. unfold add_line. destruct known as [|c k]; [by rewrite split_on_lacks|].
  change (String.length (String c k) =? 0)%nat with false. cbv iota. change (String.eqb (String c k) "") with false. cbv iota.
  apply split_join; [by destruct (split_on _ _)|].
  intros x Hx. apply elem_of_app in Hx as [Hx|Hx%elem_of_list_singleton]; [by eapply split_lacks|by subst].
Qed.
Lemma remembered_first known hostname addr ty hash : a_word hostname → a_word addr → a_word ty → a_word hash →
  unknown_host known hostname → first_for (add_line known (hostLine hostname addr ty hash)) hostname (hostLine hostname addr ty hash).
Proof.
  intros (Hn & Hh & Hh') (_ & Ha & Ha') (_ & Ht & Ht') (_ & Hk & Hk') (ls & H%parts_split & Hu).
  assert (lacks (Zbyte 10) (hostLine hostname addr ty hash)) as Hl by by apply hostLine_lacks.
  exists (if String.eqb known "" then [] else split_on (Zbyte 10) known), [].
  split; [apply parts_split; by rewrite add_line_lines|]. split; [exists [addr; ty; hash]; by apply hostLine_words|].
  intros x Hx. apply Hu. rewrite H. destruct (String.eqb_spec known "") as [->|]; [by apply elem_of_nil in Hx|done].
Qed.
Lemma others_kept known hostname addr ty hash h2 addr2 ty2 hash2 inp : a_word hostname → a_word addr → a_word ty → a_word hash →
  h2 ≠ "" → h2 ≠ hostname →
  host_callback (add_line known (hostLine hostname addr ty hash)) h2 addr2 ty2 hash2 inp = host_callback known h2 addr2 ty2 hash2 inp.
Proof.
  intros (Hn & Hh & Hh') (_ & Ha & Ha') (_ & Ht & Ht') (_ & Hk & Hk') Hne Hd.
  assert (lacks (Zbyte 10) (hostLine hostname addr ty hash)) as Hl by by apply hostLine_lacks.
  unfold host_callback. rewrite add_line_lines by done.
  assert (known_scan h2 ty2 hash2 [hostLine hostname addr ty hash] = None) as Hno.
  { apply scan_unknown. intros x ->%elem_of_list_singleton. rewrite for_host_split.
    pose proof (hostLine_words hostname addr ty hash Hh Ha Ht Hk) as Hw%parts_split. rewrite <-Hw. cbn. congruence. }
  assert (∀ a b, known_scan h2 ty2 hash2 b = None → known_scan h2 ty2 hash2 (a ++ b) = known_scan h2 ty2 hash2 a) as Happ.
  { intros a b Hb. induction a as [|x a IH]; [done|]. cbn [app known_scan]. cbv zeta. by rewrite IH. }
  rewrite Happ by done. destruct (String.eqb_spec known "") as [->|]; [|done].
  replace (known_scan h2 ty2 hash2 (split_on (Zbyte 10) "")) with (@None (outcome unit)); [done|].
  symmetry. apply scan_unknown. intros x ->%elem_of_list_singleton. rewrite for_host_split. cbn. congruence.
Qed.

(** ** saveHosts *)

Lemma remember_lookup l m u : NoDup l.*1 →
  remember l m !! u = match (list_to_map l : gmap string string) !! u with
    | Some line => (λ b : entry, <["knownhosts" := add_line (default "" (b !! "knownhosts")) line]> b) <$> m !! u
    | None => m !! u
    end.
Proof.
  revert m. induction l as [|[v line] l IH]; intros m Hnd; [done|]. rewrite fmap_cons in Hnd. apply NoDup_cons in Hnd as [Hv Hnd].
  cbn [remember]. rewrite IH by done. cbn [list_to_map foldr uncurry]. cbn.
  destruct (decide (u = v)) as [->|Huv].
  - rewrite lookup_insert. rewrite (not_elem_of_list_to_map_1 l v) by done. by rewrite lookup_alter.
  - rewrite lookup_insert_ne, lookup_alter_ne by done. done.
Qed.
Lemma save_loop_ok e l : ∀ i d m m0, NoDup l.*1 → holds d m → snap_of d = m0 →
  (∀ u, u ∈ l.*1 → is_Some (m !! u) ∧ m0 !! u = m !! u) →
  ∃ d', save_loop e i l d = (d', Ok tt) ∧ holds d' (remember l m) ∧ db_txpoint d' = db_txpoint d ∧
    ∃ txs, vis (db_log d') = vis (db_log d) ++ txs ∧ length txs = length l ∧ ∀ t, t ∈ txs → tx_kind t = "setk" ∧ tx_key t = "knownhosts" ∧ tx_uuid t ∈ l.*1.
Proof.
  induction l as [|[u line] l IH]; intros i d m m0 Hnd Hh Hs Hl.
  { exists d. split; [done|]. split; [done|]. split; [done|]. exists []. split; [by rewrite app_nil_r|]. split; [done|].
    intros t Ht. by apply elem_of_nil in Ht. }
  rewrite fmap_cons in Hnd, Hl. apply NoDup_cons in Hnd as [Hu Hnd].
  destruct (Hl u) as [[b Hb] Hm0]; [left|].
  cbn [save_loop remember]. unfold mbind, M_bind, get_snap. cbv zeta. rewrite Hs, Hm0, Hb. cbn [default].
  unfold default, id. unfold dbSet, modify.
  set (d1 := Model_TxLog.Set_ _ _ _ _ _ _).
  assert (holds d1 (alter (λ b : entry, <["knownhosts" := add_line (default "" (b !! "knownhosts")) line]> b) u m)) as Hh1.
  { assert (alter (λ b : entry, <["knownhosts" := add_line (default "" (b !! "knownhosts")) line]> b) u m =
            <[u := <["knownhosts" := add_line (default "" (b !! "knownhosts")) line]> b]> m) as ->.
    { apply map_eq. intros v. destruct (decide (v = u)) as [->|]; [by rewrite lookup_alter, lookup_insert, Hb|].
      by rewrite lookup_alter_ne, lookup_insert_ne. }
    subst d1. by apply holds_set. }
  destruct (IH (S i) d1 _ m0 Hnd Hh1) as (d' & E & Hh' & Hp & txs & Hv & Hlen & Ht).
  - subst d1. rewrite <-Hs. done.
  - intros v Hv. assert (v ≠ u) by (intros ->; done). destruct (Hl v) as [H1 H2]; [by right|].
    by rewrite lookup_alter_ne.
  - exists d'. split; [exact E|]. split; [done|]. split; [rewrite Hp; done|].
    subst d1. unfold Model_TxLog.Set_, appendLog in Hv. cbn [db_log] in Hv. rewrite slice_append_vis in Hv.
    eexists (_ :: txs). split; [rewrite Hv, <-app_assoc; reflexivity|]. split; [cbn; lia|].
    intros t [->|Hin]%elem_of_cons; [cbn; split; [done|]; split; [done|left]|].
    destruct (Ht _ Hin) as (? & ? & ?). split; [done|]. split; [done|]. by right.
Qed.
Lemma saveHosts_ok e l d m : NoDup l.*1 → holds d m → snap_of d = m → (∀ u, u ∈ l.*1 → is_Some (m !! u)) →
  ∃ d', saveHosts e l d = (d', Ok tt) ∧ holds d' (remember l m) ∧ snap_of d' = remember l m ∧ db_txpoint d' = db_txpoint d ∧
    ∃ txs, vis (db_log d') = vis (db_log d) ++ txs ∧ length txs = length l ∧ ∀ t, t ∈ txs → tx_kind t = "setk" ∧ tx_key t = "knownhosts" ∧ tx_uuid t ∈ l.*1.
Proof.
  intros Hnd Hh Hs Hl. destruct (save_loop_ok e l 0 d m m) as (d1 & E & Hh1 & Hp & txs & Hv & Hlen & Ht); [done|done|done|by auto|].
  destruct (holds_update _ _ Hh1) as (d2 & E2 & Hs2 & Hv2 & Hp2 & Hh2).
  exists d2. unfold saveHosts, mbind, M_bind. rewrite E. split; [done|]. split; [done|]. split; [done|]. split; [by rewrite Hp2|].
  exists txs. by rewrite Hv2.
Qed.
Lemma saveHosts_gone e u line d m : holds d m → snap_of d = m → m !! u = None →
  ∃ d' err, saveHosts e [(u, line)] d = (d', Fail err) ∧ ¬ replayable (vis (db_log d')).
Proof.
  intros Hh Hs Hu. unfold saveHosts, mbind, M_bind. cbn [save_loop]. unfold mbind, M_bind, get_snap, dbSet, modify. cbv zeta.
  rewrite Hs, Hu. cbn [default]. set (d1 := Model_TxLog.Set_ _ _ _ _ _ _).
  unfold mret, M_ret. assert (¬ replayable (vis (db_log d1))) as Hn.
  { subst d1. unfold Model_TxLog.Set_, appendLog. cbn [db_log]. rewrite slice_append_vis. intros [m' Hm'].
    apply replays_snoc in Hm' as (m1 & Hm1 & Hstep). destruct Hh as [_ Hr]. rewrite (replays_det _ _ _ Hm1 Hr) in Hstep.
    inversion Hstep; simplify_eq/=. }
  destruct (UpdateSnapshot d1) as [d2 r] eqn:E2.
  assert (coherent d1) as Hc by (apply coherent_append, Hh).
  destruct (coherent_update _ _ _ Hc E2) as (Hc2 & Hnp & Hfull).
  destruct (UpdateSnapshot_log _ _ _ E2) as [Hlog _].
  destruct r as [[]|err|].
  - exfalso. destruct (Hfull eq_refl) as [_ Hrep]. apply Hn. rewrite <-Hlog. by eexists.
  - exists d2, err. split; [done|]. by rewrite Hlog.
  - done.
Qed.
