(** Proofs about the line editors, tab completion and the programs started. *)
From Verif Require Proof_Crypt2 Proof_Session2.
From Verif Require Import Spec_Editor Proof_GoStr Proof_Export Proof_Utf8 Proof_TxLog Proof_Blobs2 Proof_Trim Proof_Text Proof_Lines Proof_Repl3 Proof_Repl6.
From Coq Require Import Lia Sorting.Sorted.
From stdpp Require Import options.
Import Model_GoStr Proof_Utf8.
#[local] Open Scope nat_scope.

(** ** Tab completion *)
Lemma completer_spec lower e ord d m : holds d m → all_named m → fair e → fair_results ord →
  ∃ d' l, entryCompleter lower e ord (Some d) = (Some d', Ok l) ∧ l ≡ₚ names_in m ∧ Sorted (λ a b, String.leb a b = true) l ∧
    holds d' m ∧ db_log d' = db_log d.
Proof.
  intros Hh Ha Hf Ho. destruct (holds_update d m Hh) as (d1 & Hu & Hs & Hv & _ & Hh1).
  assert (∃ r, Search lower e "" d = (d1, Ok r) ∧ exactly m (λ _, True) r) as (r & Hr & He).
  { unfold Search, mbind, M_bind. rewrite Hu. unfold get_snap. rewrite Hs. destruct (size m =? 0)%nat eqn:E0.
    - apply map_size_zero in E0. subst. exists None. split; [done|]. intros u n. rewrite E0. simpl. rewrite lookup_empty. split; [done|].
      intros (b & Hb & _). by rewrite lookup_empty in Hb.
    - change (String.eqb "" "") with true. destruct (allEntries_spec e m Hf Ha) as (r & Hr & He). exists r. unfold lift. by rewrite Hr. }
  exists d1, (sort_strings (ord (res_map r)).*2). split; [by unfold entryCompleter; rewrite Hr|]. split; [|split; [apply sort_strings_sorted|split; [done|]]].
  - rewrite sort_strings_perm, (Ho (res_map r)). assert (res_map r = (λ b : entry, default "" (b !! "name")) <$> m) as ->.
    { apply map_eq. intros u. rewrite lookup_fmap. destruct (m !! u) as [b|] eqn:E.
      - destruct (Ha u b E) as [n Hn]. cbn. rewrite Hn. apply He. eauto.
      - cbn. destruct (res_map r !! u) as [n|] eqn:E2; [|done]. apply He in E2 as (b & Hb & _). congruence. }
    rewrite map_to_list_fmap. unfold names_in. rewrite <-list_fmap_compose. apply reflexive_eq, list_fmap_ext. by intros ? [u b] _.
  - by apply UpdateSnapshot_log in Hu as [? _].
Qed.
Lemma completer_log lower e ord d d' r : entryCompleter lower e ord d = (d', r) → option_map db_log d' = option_map db_log d.
Proof.
  unfold entryCompleter. destruct d as [d|]; [|by intros [= <- <-]].
  assert (db_log (Search lower e "" d).1 = db_log d) as E.
  { unfold Search, mbind, M_bind. destruct (UpdateSnapshot d) as [d1 r1] eqn:Hu. apply UpdateSnapshot_log in Hu as [Hu _]. destruct r1 as [[]|x|]; [|done|done].
    unfold get_snap. destruct (size _ =? 0)%nat; [done|]. unfold lift. by destruct (allEntries _). }
  destruct (Search lower e "" d) as [d1 [r1|x|]]; intros [= <- <-]; cbn in *; by rewrite E.
Qed.
Lemma completer_unnamed lower e ord d m u b : holds d m → fair e → m !! u = Some b → b !! "name" = None →
  (entryCompleter lower e ord (Some d)).2 = Panic.
Proof.
  intros Hh Hf Hb Hn. destruct (holds_update d m Hh) as (d1 & Hu & Hs & Hv & _ & Hh1).
  unfold entryCompleter, Search, mbind, M_bind. rewrite Hu. unfold get_snap. rewrite Hs. destruct (size m =? 0)%nat eqn:E0.
  { apply map_size_zero in E0. subst. by rewrite E0, lookup_empty in Hb. }
  change (String.eqb "" "") with true. cbn iota. assert (allEntries (e_ord e 0 m) = Panic) as ->; [|done].
  assert ((u, b) ∈ e_ord e 0 m) as Hin by (by apply ord_elem).
  assert (∀ l acc, (u, b) ∈ l → collect (λ _ _, Ok true) l acc = Panic) as Hc.
  { clear Hin. induction l as [|[u' b'] l IH]; intros acc Hin; [by apply elem_of_nil in Hin|]. cbn [collect].
    apply elem_of_cons in Hin as [[= <- <-]|Hin].
    - unfold Name, KeyName. by rewrite Hn.
    - unfold Name. destruct (b' !! KeyName) as [n|]; [|done]. by apply IH. }
  unfold allEntries. destruct (e_ord e 0 m) as [|x l]; [by apply elem_of_nil in Hin|]. by rewrite Hc.
Qed.

(** ** UTF-16 *)
Lemma utf16_rune_ok r t : valid_rune r = true → utf16_decode (utf16_rune r ++ t) = r :: utf16_decode t.
Proof.
  intros Hv. assert ((0 ≤ r < 55296 ∨ 57344 ≤ r < 1114112)%Z) as Hr.
  { unfold valid_rune, inr in Hv. apply orb_true_iff in Hv. rewrite !andb_true_iff, !Z.leb_le in Hv. lia. }
  unfold utf16_rune. destruct (Z.ltb_spec r 65536).
  - cbn [app utf16_decode]. unfold surr1, surr2. destruct (Z.leb_spec 55296 r), (Z.ltb_spec r 56320), (Z.leb_spec 56320 r), (Z.ltb_spec r 57344); cbn [andb]; try done; lia.
  - cbn [app utf16_decode]. pose proof (Z.div_mod (r - 65536) 1024 ltac:(lia)). pose proof (Z.mod_pos_bound (r - 65536) 1024 ltac:(lia)).
    assert (0 ≤ (r - 65536) / 1024 < 1024)%Z by (split; [apply Z.div_pos; lia|apply Z.div_lt_upper_bound; lia]).
    set (q := ((r - 65536) / 1024)%Z) in *. set (p := ((r - 65536) mod 1024)%Z) in *. unfold surr1, surr2.
    destruct (Z.leb_spec 55296 (55296 + q)); [|lia]. destruct (Z.ltb_spec (55296 + q) 56320); [|lia]. cbn [andb].
    destruct (Z.leb_spec 56320 (56320 + p)); [|lia]. destruct (Z.ltb_spec (56320 + p) 57344); [|lia]. cbn [andb]. f_equal. lia.
Qed.
Lemma utf16_ok rs : Forall (λ r, valid_rune r = true) rs → utf16_decode (utf16 rs) = rs.
Proof. induction 1 as [|r rs Hr _ IH]; [done|]. unfold utf16. cbn [map concat]. rewrite utf16_rune_ok by done. by f_equal. Qed.
Lemma special_small c : special_unit c = true → (0 ≤ c < 128)%Z.
Proof. unfold special_unit. rewrite !orb_true_iff, !Z.eqb_eq. lia. Qed.
Lemma utf16_plain rs : Forall character rs → Forall (λ c, special_unit c = false) (utf16 rs).
Proof.
  induction 1 as [|r rs [Hv Hs] _ IH]; [constructor|]. unfold utf16. cbn [map concat]. apply Forall_app. split; [|done].
  unfold utf16_rune. destruct (Z.ltb_spec r 65536); [by constructor|].
  assert (0 ≤ (r - 65536) / 1024)%Z by (apply Z.div_pos; lia). pose proof (Z.mod_pos_bound (r - 65536) 1024 ltac:(lia)).
  repeat constructor; apply not_true_is_false; intros Hc; apply special_small in Hc; lia.
Qed.

(** ** The hidden line *)
Lemma first_special_app l t i : Forall (λ c, special_unit c = false) l → first_special i (l ++ t) = first_special (i + length l) t.
Proof.
  revert i. induction l as [|c l IH]; intros i H; [by rewrite Nat.add_0_r|]. inversion H as [|? ? Hc Hl]; subst. cbn [app first_special length]. rewrite Hc, IH by done.
  f_equal. lia.
Qed.
Lemma first_special_none l i : Forall (λ c, special_unit c = false) l → first_special i l = None.
Proof. intros H. rewrite <-(app_nil_r l), first_special_app by done. done. Qed.
Definition quiet (l : list Z) : Prop := Forall (λ c, special_unit c = false) l.
Lemma quiet_zeros : quiet (replicate 256 0%Z).
Proof. by apply Forall_replicate. Qed.
Lemma chunks_loop chunks : Forall quiet chunks → ∀ buf b rest, quiet buf →
  ∃ buf', quiet buf' ∧ hidden_loop buf b (map Chunk chunks ++ rest) = hidden_loop buf' (b +:+ go_join "" (map (λ c, encode (utf16_decode c)) chunks)) rest.
Proof.
  induction 1 as [|c chunks Hc _ IH]; intros buf b rest Hb.
  - exists buf. split; [done|]. cbn [map app go_join]. by rewrite sapp_nil.
  - cbn [map app hidden_loop]. assert (quiet (c ++ drop (length c) buf)) as Hq by (apply Forall_app; split; [done|by apply Forall_drop]).
    rewrite first_special_none by done. destruct (IH _ (b +:+ encode (utf16_decode c)) rest Hq) as (buf' & Hb' & E). exists buf'. split; [done|]. rewrite E. f_equal.
    by rewrite sapp_assoc, join_empty.
Qed.
Lemma enter_loop c nl more buf b rest : quiet c → nl = 13%Z ∨ nl = 10%Z →
  hidden_loop buf b (Chunk (c ++ nl :: more) :: rest) = TLine (b +:+ encode (utf16_decode c)).
Proof.
  intros Hc Hn. cbn [hidden_loop]. rewrite <-app_assoc, first_special_app by done. cbn [first_special app].
  rewrite Nat.add_0_l. assert (take (length c) (c ++ nl :: more ++ drop (length (c ++ nl :: more)) buf) = c) as E by (by rewrite take_app).
  destruct Hn as [-> | ->]; [change (special_unit 13) with true|change (special_unit 10) with true]; cbn iota; cbn [Z.eqb orb Pos.eqb]; by rewrite E.
Qed.
Lemma hidden_units chunks c nl more rest : Forall quiet chunks → quiet c → nl = 13%Z ∨ nl = 10%Z →
  LineHidden None (map Chunk chunks ++ Chunk (c ++ nl :: more) :: rest) = TLine (TrimSpace (go_join "" (map (λ c, encode (utf16_decode c)) (chunks ++ [c])))).
Proof.
  intros Hcs Hc Hn. unfold LineHidden. destruct (chunks_loop chunks Hcs (replicate 256 0%Z) "" (Chunk (c ++ nl :: more) :: rest) quiet_zeros) as (buf & _ & ->).
  rewrite enter_loop by done. f_equal. f_equal. change ("" +:+ ?x) with x. rewrite map_app. cbn [map]. clear.
  induction (map (λ c0, encode (utf16_decode c0)) chunks) as [|x l IH]; [by cbn [go_join app]|]. cbn [app]. by rewrite !join_empty, sapp_assoc, IH.
Qed.
Lemma hidden_runes rss nl more rest : Forall (Forall character) rss → nl = 13%Z ∨ nl = 10%Z →
  ∀ rs, Forall character rs →
  LineHidden None (map (λ l, Chunk (utf16 l)) rss ++ Chunk (utf16 rs ++ nl :: more) :: rest) = TLine (TrimSpace (encode (concat rss ++ rs))).
Proof.
  intros Hr Hn rs Hrs. pose proof (hidden_units (map utf16 rss) (utf16 rs) nl more rest) as H. rewrite map_map in H. rewrite H; [|..]; [|by apply Forall_fmap; eapply Forall_impl; [exact Hr|]; intros l; apply utf16_plain|by apply utf16_plain|done].
  f_equal. f_equal. assert (∀ l, Forall character l → utf16_decode (utf16 l) = l) as Hd.
  { intros l Hl. apply utf16_ok. eapply Forall_impl; [exact Hl|]. by intros r [? _]. }
  rewrite map_app, map_map. cbn [map]. rewrite Hd by done. clear H. induction Hr as [|l rss Hl _ IH]; [done|]. cbn [map concat app].
  rewrite join_empty, Hd by done. rewrite <-app_assoc, encode_app. by rewrite IH.
Qed.
Lemma hidden_tight setup reads s : LineHidden setup reads = TLine s → TrimSpace s = s.
Proof.
  unfold LineHidden. destruct setup; [done|]. destruct (hidden_loop _ _ _) as [t| | |]; [|done..]. intros [= <-]. apply TrimSpace_id. by destruct (TrimSpace_spec t) as (a & b & _ & _ & _ & H).
Qed.
Lemma encode_any l : utf8 (encode (utf16_decode l)) .
Proof.
  induction (utf16_decode l) as [|r rs IH]; [by exists []|]. rewrite encode_cons. apply Proof_Session2.utf8_app; [|done].
  destruct (valid_rune r) eqn:E; [by apply utf8_rune|]. unfold encode_rune. rewrite E. by apply (utf8_rune RuneError).
Qed.
Lemma first_special_some l : ∀ i n c, first_special i l = Some (n, c) → c ∈ l.
Proof.
  induction l as [|x l IH]; intros i n c; cbn [first_special]; [done|]. destruct (special_unit x); [intros [= <- <-]; by left|]. intros H%IH. by right.
Qed.
Lemma hidden_utf8 reads : Forall (λ r, match r with Chunk l => ¬ (8%Z ∈ l) | _ => True end) reads → ∀ buf b s, ¬ (8%Z ∈ buf) → utf8 b →
  hidden_loop buf b reads = TLine s → utf8 s.
Proof.
  induction 1 as [|[l|x] reads Hl _ IH]; intros buf b s Hb Hu; cbn [hidden_loop]; [done| |done].
  assert (¬ (8%Z ∈ l ++ drop (length l) buf)) as Hq. { intros [H|H]%elem_of_app; [done|]. apply Hb. eapply elem_of_submseteq; [exact H|]. apply sublist_submseteq, sublist_drop. }
  destruct (first_special 0 _) as [[i c]|] eqn:E.
  - apply first_special_some in E. destruct (Z.eqb_spec c 8) as [->|_]; [done|]. destruct (_ || _).
    + intros [= <-]. apply Proof_Session2.utf8_app; [done|]. apply encode_any.
    + by destruct (c =? 4)%Z.
  - apply IH; [done|]. apply Proof_Session2.utf8_app; [done|]. apply encode_any.
Qed.

(** Key by key *)
Lemma encode_ascii r : (0 ≤ r < 128)%Z → encode [r] = String (Zbyte r) "".
Proof.
  intros H. cbn [encode fold_right]. rewrite sapp_nil. unfold encode_rune.
  assert (valid_rune r = true) as ->. { unfold valid_rune. apply orb_true_iff. left. unfold inr. rewrite andb_true_iff, !Z.leb_le. lia. }
  unfold encode_valid. destruct (Z.leb_spec r 127); [done|lia].
Qed.
Lemma erase_last s c : String.substring 0 (String.length (s +:+ String c "") - 1) (s +:+ String c "") = s.
Proof.
  rewrite sapp_length. change (String.length (String c "")) with 1. replace (String.length s + 1 - 1) with (String.length s) by lia.
  induction s as [|x s IH]; [done|]. cbn. f_equal. exact IH.
Qed.
Lemma keys_loop ks : Forall ascii_key ks → ∀ line buf rest out, Forall (λ r, 0 ≤ r < 128)%Z line → quiet (drop 1 buf) → line_after line ks = Some out →
  ∃ buf', quiet (drop 1 buf') ∧ hidden_loop buf (encode line) (map (λ k, Chunk (key_units k)) ks ++ rest) = hidden_loop buf' (encode out) rest.
Proof.
  induction 1 as [|k ks Hk _ IH]; intros line buf rest out Hl Hb He.
  - exists buf. injection He as <-. done.
  - destruct k as [r|]; cbn [line_after] in He; cbn [map app hidden_loop key_units].
    + destruct Hk as [Hr Hs]. assert (utf16_rune r = [r]) as -> by (unfold utf16_rune; destruct (Z.ltb_spec r 65536); [done|lia]). cbn [app length].
      assert (quiet (r :: drop 1 buf)) as Hq by (by constructor). rewrite first_special_none by done.
      assert (utf16_decode [r] = [r]) as ->. { cbn [utf16_decode]. unfold surr1, surr2. destruct (Z.leb_spec 55296 r); [lia|]. destruct (Z.leb_spec 56320 r); [lia|]. done. }
      rewrite <-encode_app. apply IH; [by apply Forall_app; split; [|constructor]|done|done].
    + destruct line as [|x line] using rev_ind; [done|]. clear IHline. apply Forall_app in Hl as [Hl Hx]. inversion Hx; subst.
      assert (line_after line ks = Some out) as He'. { destruct (line ++ [x]) as [|y l] eqn:E; [by destruct line|]. rewrite <-E in He. by rewrite removelast_last in He. }
      cbn [app length first_special]. change (special_unit 8) with true. cbn iota. change (8 =? 8)%Z with true. cbn iota.
      rewrite encode_app, (encode_ascii x) by done. destruct (String.eqb_spec (encode line +:+ String (Zbyte x) "") "") as [E|_]; [by destruct (encode line)|].
      rewrite erase_last. by apply IH.
Qed.
Lemma hidden_keys ks nl more rest out : Forall ascii_key ks → line_after [] ks = Some out → nl = 13%Z ∨ nl = 10%Z →
  LineHidden None (map (λ k, Chunk (key_units k)) ks ++ Chunk (nl :: more) :: rest) = TLine (TrimSpace (encode out)).
Proof.
  intros Hk He Hn. unfold LineHidden. change "" with (encode []).
  destruct (keys_loop ks Hk [] (replicate 256 0%Z) (Chunk (nl :: more) :: rest) out) as (buf & _ & ->); [constructor|by apply Forall_drop, quiet_zeros|done|].
  change (nl :: more) with ([] ++ nl :: more). rewrite enter_loop; [|constructor|done]. cbn. by rewrite sapp_nil.
Qed.

(** ** The lines on Windows *)
Lemma cut_ended l t : (∀ c, c ∈ str_bytes l → c ≠ Zbyte 10) → cut_line (l +:+ String (Zbyte 10) t) = (l, t).
Proof.
  induction l as [|c l IH]; intros H; [done|]. cbn [String.append]. change (String c l +:+ ?x) with (String c (l +:+ x)). cbn [cut_line].
  destruct (Ascii.eqb_spec c (Zbyte 10)) as [->|_]; [by destruct (H (Zbyte 10)); [left|]|]. rewrite IH; [done|]. intros x Hx. apply H. by right.
Qed.
Lemma drop_cr_end l : drop_cr (l +:+ String (Zbyte 13) "") = l.
Proof.
  induction l as [|c l IH]; [done|]. change (String c l +:+ ?x) with (String c (l +:+ x)). cbn [drop_cr].
  destruct (String.eqb_spec (l +:+ String (Zbyte 13) "") "") as [E|_]; [by destruct l|]. rewrite andb_false_r. by rewrite IH.
Qed.
Lemma drop_cr_none l : (∀ t, l ≠ t +:+ String (Zbyte 13) "") → drop_cr l = l.
Proof.
  induction l as [|c l IH]; intros H; [done|]. cbn [drop_cr]. destruct (Ascii.eqb_spec c (Zbyte 13)) as [->|_]; cbn [andb].
  - destruct (String.eqb_spec l "") as [->|_]; [by destruct (H "")|]. rewrite IH; [done|]. intros t ->. by apply (H (String (Zbyte 13) t)).
  - rewrite IH; [done|]. intros t ->. by apply (H (String c t)).
Qed.
Lemma scan_ended p t : ends_well p → scan_line (ended p +:+ t) = Some (p.1, t).
Proof.
  destruct p as [l b]. intros (Hl & Hc & Hn). cbn [fst snd] in *. unfold ended. cbn [fst snd].
  set (l' := l +:+ (if b then String (Zbyte 13) "" else "")).
  assert ((l +:+ (if b then String (Zbyte 13) "" else "") +:+ String (Zbyte 10) "") +:+ t = l' +:+ String (Zbyte 10) t) as ->.
  { unfold l'. rewrite !sapp_assoc. by destruct b. }
  unfold scan_line. destruct (String.eqb_spec (l' +:+ String (Zbyte 10) t) "") as [E|_]; [by destruct l'|].
  assert (∀ c, c ∈ str_bytes l' → c ≠ Zbyte 10) as Hl'.
  { unfold l'. intros c. destruct b; [|by rewrite sapp_nil; apply Hl]. rewrite Proof_Crypt2.str_bytes_app. intros [H|H]%elem_of_app; [by apply Hl|]. apply elem_of_list_singleton in H as ->. vm_compute. discriminate. }
  rewrite cut_ended by done. assert (String.length l' < line_limit) as Hlen.
  { unfold l'. rewrite sapp_length. destruct b; [change (String.length (String (Zbyte 13) "")) with 1; lia|change (String.length "") with 0; lia]. }
  destruct (Nat.leb_spec line_limit (String.length l')); [lia|]. f_equal. f_equal. unfold l'. destruct b; [apply drop_cr_end|]. rewrite sapp_nil. by apply drop_cr_none, Hc.
Qed.
Lemma ended_length p : 1 ≤ String.length (ended p).
Proof. unfold ended. rewrite !sapp_length. cbn. lia. Qed.
Lemma stdin_lines ps : Forall ends_well ps → stdin_inputs (go_join "" (map ended ps)) = map (λ p, ILine p.1) ps ++ [IErr EInterrupt].
Proof.
  intros H. unfold stdin_inputs. remember (S (String.length (go_join "" (map ended ps)))) as n eqn:En. assert (String.length (go_join "" (map ended ps)) < n) as Hn by lia. clear En. revert n Hn.
  induction H as [|p ps Hp _ IH]; intros n Hn; (destruct n as [|n]; [lia|]); [done|]. cbn [map] in *.
  assert (go_join "" (ended p :: map ended ps) = ended p +:+ go_join "" (map ended ps)) as E.
  { apply join_empty. }
  rewrite E in *. cbn [scan_inputs]. rewrite scan_ended by done. cbn [app]. f_equal. apply IH. rewrite sapp_length in Hn. pose proof (ended_length p). lia.
Qed.

(** ** Prompts *)
Lemma prompts_ok ps : Forall (λ p, p ≠ "") ps → ∀ shown, prompts_shown new_editor shown ps = ps.
Proof.
  induction 1 as [|p ps Hp _ IH]; intros shown; [done|]. cbn [prompts_shown]. unfold line_prompt. cbn [currentPrompt promptNeedsReset new_editor].
  destruct (String.eqb_spec "" p) as [<-|_]; [done|]. cbn [negb orb]. by rewrite IH.
Qed.
