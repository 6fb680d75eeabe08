(** C81: text that is typed is stored as text.  C80, continued. *)
From Verif Require Import Proof_Crypt7 Spec_Main Proof_TxLog Proof_Blobs Proof_SessionEx Proof_Session Proof_Session2 Proof_Session3 Proof_Repl5 Proof_Repl6 Proof_Repl7 Proof_Main Proof_Text3 Props_Repl Proof_GoStr.
From Coq Require Import Lia.
From stdpp Require Import options.
Import Model_GoStr.
#[local] Open Scope nat_scope.

(** ** C81: what is typed as UTF-8 is stored as UTF-8 *)

(** Cutting a line into words, at blanks, commas or slashes, or trimming it, does not
    cut through a character. *)
Theorem C81_cuts : ∀ s, utf8 s →
  utf8 (TrimSpace s) ∧ Forall utf8 (Fields s) ∧ (∀ c, (byteZ c < 128)%Z → Forall utf8 (split_on c s)).
Proof. intros s H. split; [by apply utf8_TrimSpace|]. split; [by apply utf8_Fields|]. intros c Hc. by apply utf8_split_on. Qed.
Print Assumptions C81_cuts.
Example C81_cuts_example : Fields "caf" = ["caf"] ∧ Forall utf8 (Fields (" caf" +:+ encode_rune 233 +:+ encode_rune 8195 +:+ encode_rune 8364)) ∧
  Fields (" caf" +:+ encode_rune 233 +:+ encode_rune 8195 +:+ encode_rune 8364) = ["caf" +:+ encode_rune 233; encode_rune 8364].
Proof.
  split; [by vm_compute|]. split; [|by vm_compute]. apply utf8_Fields. exists [32; 99; 97; 102; 233; 8195; 8364]%Z. split; [repeat constructor|by vm_compute].
Qed.

(** Cut after a prefix that is text, or before what starts a character, text is cut into
    two texts. *)
Theorem C81_cut : ∀ a b, utf8 (a +:+ b) →
  (utf8 a ↔ utf8 b).
Proof. intros a b H. split; intros H1; [by eapply utf8_cancel|]. by apply (utf8_split a b H), utf8_starts. Qed.
Print Assumptions C81_cut.

(** Generated passwords are ASCII, whatever the settings and the randomness. *)
Theorem C81_password : ∀ ent len c pw, genPassword ent len c = Ok pw → ∀ x, x ∈ pw → (byteZ x < 128)%Z.
Proof. intros ent len c pw E x Hx. pose proof (genPassword_asc _ _ _ _ E) as H. by apply (proj1 (Forall_forall _ _) H). Qed.
Print Assumptions C81_password.

(** Every command that a line of text makes keeps the store one of text. *)
Theorem C81_command : ∀ w ro ctx line c, text_world w → utf8 ctx → utf8 line → parse_line ro ctx line = Run c →
  (∀ n, c = KSync n → text_kept (w_sync w n)) → text_kept (exec w ctx c).
Proof. intros w ro ctx line c Hw Hx Hl E Hs. apply exec_text; try done. exact (typed_here _ _ _ _ Hx Hl E). Qed.
Print Assumptions C81_command.

(** So does the whole command loop. *)
Theorem C81_loop : ∀ w s inp s' o r, (∀ n, text_world (w n)) → clean (s_db s) → typed_text inp →
  (∀ n k, text_kept (w_sync (w n) k)) ∨ never_typed "sync" inp →
  run_repl w s inp = (s', o, r) → (∃ rest, r = UOk tt rest) ∨ (∃ e rest, r = UErr e rest) → clean (s_db s').
Proof. intros w s inp s' o r Hw Hs Hi Hn E Hr. pose proof (repl_text w s inp s' o r Hw Hs Hi Hn E) as H. destruct Hr as [[rest ->]|(e & rest & ->)]; exact H. Qed.
Print Assumptions C81_loop.

(** Typing bytes that are not UTF-8 is what breaks it: they are stored as they are. *)
Example C81_bytes_example : ¬ utf8 (String (Zbyte 255) "") ∧ ∀ d, vis (db_log (dbSet se_env 0 "u1" "user" (String (Zbyte 255) "") d).1) =
  vis (db_log d) ++ [mk_tx 100 "setk" "u1" "user" (String (Zbyte 255) "")].
Proof.
  split.
  - intros H. apply utf8_starts in H as H1. destruct H as (rs & Hv & E). destruct Hv as [|r rs Hr Hv]; [done|]. rewrite encode_cons in E.
    destruct (enc_shape r Hr) as (c & t & Er & _ & Ht & _). rewrite Er in E. injection E as E1 E2.
    assert (encode_rune r = String (Zbyte 255) "") as E3. { rewrite Er, <-E1. f_equal. destruct t; [done|discriminate E2]. }
    clear - Hr E3. apply Proof_Utf8.valid_rune_spec in Hr as Hr'. unfold encode_rune in E3. rewrite Hr in E3. unfold encode_valid in E3.
    destruct (_ <=? 127)%Z eqn:E1; [|destruct (_ <=? 2047)%Z; [discriminate E3|]; destruct (_ <=? 65535)%Z; discriminate E3].
    injection E3 as E3. apply (f_equal byteZ) in E3. rewrite !byteZ_Zbyte in E3 by lia. lia.
  - intros d. unfold dbSet, modify, Model_TxLog.Set_, appendLog. cbn [fst db_log]. by rewrite slice_append_vis.
Qed.

(** ** C80, continued: a session of text *)

(** A single-user session without passwd in which text is typed: the store at the end is
    saved, and opening the file gives exactly that store again. *)
Theorem C80_saved_text_partial : ∀ P (U : string → Prop) w w0 w1 e ord riv s pass m0 inp s' o rest,
  (∀ n, w_P (w n) = P) → (∀ n, rand_ok (w_rand (w n))) → (∀ n, tame U (w n)) → (∀ i j, drawn (w i) = drawn (w j) → i = j) → (∀ n, text_world (w n)) →
  prims_ok P → length riv = 40 → sound U s → s_readOnly s = false → single_session P s pass → s_pass s = "" ∨ s_pass s = pass → good (s_db s) m0 →
  typed_text inp → never_typed "sync" inp → never_typed "adduser" inp → never_typed "passwd" inp →
  run_repl w s inp = (s', o, UOk tt rest) → (Z.of_nat (length (vis (db_log (s_db s')))) < 2 ^ 64)%Z →
  ∃ f m, session_main P false w0 w1 w e ord (Some riv) s inp = (s', UOk (Some f) rest) ∧ log_grew s s' ∧ good (s_db s') m ∧
    ∀ sp rsalt r, ∃ s2, loadBlob P (Found (mk_slice f sp)) None rsalt (ILine pass :: r) = UOk s2 r ∧
      same_store (s_db s') (s_db s2) ∧ good (s_db s2) m.
Proof.
  intros P U w w0 w1 e ord riv s pass m0 inp s' o rest HP Hr Ht Hd Hw HPo Hl Hs Hro Hss Hsp Hg Hty H1 H2 H3 E Hn.
  destruct (main_text P (λ p, p = pass) U w w0 w1 e ord riv s inp s' o rest m0) as (f & p & m & -> & H); try done.
  - split; [done|]. by exists pass.
  - split; [done|]. split; [done|by left].
  - by exists f, m.
Qed.
Print Assumptions C80_saved_text_partial.

(** With passwd. *)
Theorem C80_saved_text_passwd_partial : ∀ P (U : string → Prop) w w0 w1 e ord riv s pass m0 inp s' o rest,
  (∀ n, w_P (w n) = P) → (∀ n, rand_ok (w_rand (w n))) → (∀ n, tame U (w n)) → (∀ i j, drawn (w i) = drawn (w j) → i = j) → (∀ n, text_world (w n)) →
  prims_ok P → length riv = 40 → sound U s → s_readOnly s = false → single_session P s pass → good (s_db s) m0 →
  typed_text inp → never_typed "sync" inp → never_typed "adduser" inp →
  run_repl w s inp = (s', o, UOk tt rest) → (Z.of_nat (length (vis (db_log (s_db s')))) < 2 ^ 64)%Z →
  ∃ f m pass', session_main P false w0 w1 w e ord (Some riv) s inp = (s', UOk (Some f) rest) ∧ log_grew s s' ∧ good (s_db s') m ∧
    ∀ sp rsalt r, ∃ s2, loadBlob P (Found (mk_slice f sp)) None rsalt (ILine pass' :: r) = UOk s2 r ∧
      same_store (s_db s') (s_db s2) ∧ good (s_db s2) m.
Proof.
  intros P U w w0 w1 e ord riv s pass m0 inp s' o rest HP Hr Ht Hd Hw HPo Hl Hs Hro Hss Hg Hty H1 H2 E Hn.
  destruct (main_text P (λ _, True) U w w0 w1 e ord riv s inp s' o rest m0) as (f & p & m & _ & H); try done.
  - split; [split; [done|by right]|]. by exists pass.
  - split; [done|]. split; [done|by right].
  - by exists f, m, p.
Qed.
Print Assumptions C80_saved_text_passwd_partial.

(** An outside of text, and text that is typed. *)
Definition tw (n : nat) : world := let w := ex_ws n in {|
  w_P := w_P w; w_env := λ i, mk_env (λ j, 100 + Z.of_nat (j mod 10))%Z (λ _, 0) ("v" +:+ ones n) (λ _ m, map_to_list m); w_rand := w_rand w;
  w_lower := w_lower w; w_upper := w_upper w; w_url := w_url w; w_coerce := w_coerce w; w_uri_ok := w_uri_ok w; w_totp := w_totp w; w_time := w_time w;
  w_keys := w_keys w; w_editor := w_editor w; w_abs := w_abs w; w_file_url := w_file_url w; w_scp_url := w_scp_url w; w_sshkey := w_sshkey w; w_sync := w_sync w |}.
Lemma tw_text n : text_world (tw n).
Proof.
  split; [|split; [exact se_ord|]].
  - intros i. split; [intros j m; reflexivity|]. split; [apply se_clock|]. cbn [tw w_env e_uuid]. apply utf8_app; [utf8_lit|].
    induction n as [|n IH]; [apply utf8_empty|]. by apply utf8_cons.
  - cbn [tw ex_ws ex_w w_coerce w_editor w_abs w_file_url w_scp_url w_sshkey].
    split; [intros a b Ha Hb; apply utf8_app; [utf8_lit|done]|]. split; [intros old st new Ho [= <- <-]; apply utf8_app; [done|utf8_lit]|].
    split; [intros p q Hp [= <-]; repeat (apply utf8_cons; [reflexivity|]); exact Hp|]. split; [intros p Hp; apply (utf8_app "file://"); [utf8_lit|done]|].
    split; [intros u' h p f pw H1 H2 H3 H4 _|intros c priv pub [= <- <-]; split; utf8_lit].
    apply utf8_app; [utf8_lit|]. apply utf8_app; [done|]. apply utf8_app; [utf8_lit|]. apply utf8_app; [done|]. apply utf8_app; [utf8_lit|].
    apply utf8_app; [done|]. by apply utf8_app; [utf8_lit|].
Qed.
Example C80_text_example :
  (∀ n, w_P (tw n) = toy) ∧ (∀ n, rand_ok (w_rand (tw n))) ∧ (∀ n, tame (λ u, u = "u1") (tw n)) ∧ (∀ i j, drawn (tw i) = drawn (tw j) → i = j) ∧
  (∀ n, text_world (tw n)) ∧ good (s_db se_single) se_m ∧ clean (s_db se_single) ∧ typed_text [ILine "cd mail"; ILine "set user bob"; IErr EEnd] ∧
  (∀ n k, text_kept (w_sync (tw n) k)).
Proof.
  split; [done|]. split; [intros n; apply se_rand_ok|]. split; [intros n; split; [intros i j m; reflexivity|]; split; [exact se_ord|done]|].
  split; [intros i j E; unfold drawn in E; cbn in E; injection E as E; apply (f_equal String.length) in E; by rewrite !ones_length in E|].
  split; [apply tw_text|]. split; [apply se_good|]. split; [eapply good_clean, se_good|]. split.
  - intros line Hl. repeat (apply elem_of_cons in Hl as [Hl|Hl]; [try discriminate Hl; injection Hl as ->; utf8_lit|]). by apply elem_of_nil in Hl.
  - intros n k s inp s' r Hs Hi [= <- <-]. done.
Qed.
