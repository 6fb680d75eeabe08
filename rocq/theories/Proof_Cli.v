(** Proofs about whole runs of the program. *)
From Verif Require Export Proof_Time2 Spec_Cli.
From Verif Require Import Spec_Json Spec_Main Proof_Utf8 Proof_TxLog Proof_Blobs Proof_Session Proof_Session2 Proof_Session3 Proof_Session5 Proof_Session6 Proof_Repl Proof_Repl6 Proof_Main Proof_Import Proof_Text Proof_Text2 Proof_Text3.
From Coq Require Import Lia.
From stdpp Require Import options.
Import Model_GoStr Proof_Utf8.
#[local] Open Scope nat_scope.
#[local] Opaque saveBlob loadBlob.

(** ** Getting to the file *)

Lemma bpass_opens o f t inp : opening o f → parseCli f = CliGo t →
  bpass o f inp = match loadBlob (o_P o) (o_disk o) (history_at t) (o_salt o) inp with
    | UErr x _ => (no_effects, exit_with o f (Some x))
    | UPanic => (no_effects, Crashed)
    | UWait => (no_effects, Waiting)
    | UOk s inp =>
        match work o f s inp with
        | (csv, UOk file _) => (mk_effects None csv file, exit_with o f None)
        | (csv, UErr x _) => (mk_effects None csv None, exit_with o f (Some x))
        | (csv, UPanic) => (mk_effects None csv None, Crashed)
        | (csv, UWait) => (mk_effects None csv None, Waiting)
        end
    end.
Proof. intros (H1 & H2 & H3 & H4 & H5) E. unfold bpass. by rewrite E, H1, H4, H2, H5. Qed.

Lemma parse_none f : f_time f = "" → f_help f = false → parseCli f = CliGo None.
Proof. intros H1 H2. unfold parseCli. by rewrite H1, H2. Qed.
Lemma parse_some f c : spelled (f_time f) c → f_help f = false → parseCli f = CliGo (Some c).
Proof.
  intros H1 H2. unfold parseCli. rewrite (time_parse_spelled _ _ H1), H2. destruct (f_time f) eqn:E; [|done].
  apply time_parse_spelled in H1. discriminate H1.
Qed.
Lemma parse_bad f : f_time f ≠ "" → (∀ c, ¬ spelled (f_time f) c) → parseCli f = CliExit 1.
Proof.
  intros H1 H2. unfold parseCli. destruct (f_time f) eqn:E; [done|]. rewrite <- E in *. destruct (time_parse (f_time f)) as [c|] eqn:Ep; [by apply time_parse_inv, H2 in Ep|]. by rewrite E.
Qed.

(** ** Reading only *)

Lemma import_main_read P lower E lpass records last e ord riv s inp s' fl rest : s_readOnly s = true →
  import_main P lower E lpass records last e ord riv s inp ≠ (s', UOk (Some fl) rest).
Proof.
  intros Hro. unfold import_main. destruct (importLastpass lower E lpass records last s inp) as [s1 r] eqn:Ei.
  assert (s_readOnly s1 = true) as Hr1.
  { unfold importLastpass, mbind, C_bind, state in Ei. destruct (s_created s).
    - unfold mret, C_ret in Ei. cbn [negb] in Ei. destruct lpass; [by injection Ei as <- _|]. unfold on_db in Ei. destruct (import_loop _ _ _ _ _ _ _) as [d o]. by injection Ei as <- _.
    - unfold ask, C_ret, mret in Ei. destruct (prompt inp) as [line rest'|? ?| |]; [|by injection Ei as <- _..].
      destruct (_ || _); cbn [negb] in Ei; [|by injection Ei as <- _]. destruct lpass; [by injection Ei as <- _|]. unfold on_db in Ei. destruct (import_loop _ _ _ _ _ _ _) as [d o]. by injection Ei as <- _. }
  destruct r as [[] r'|x r'| |]; try by intros [=]. Transparent saveBlob. unfold saveBlob. rewrite Hr1. by intros [=]. Opaque saveBlob.
Qed.
Lemma loaded_read P disk t rsalt inp s rest : loadBlob P disk (Some t) rsalt inp = UOk s rest → s_readOnly s = true.
Proof.
  Transparent loadBlob. unfold loadBlob. destruct disk as [| | | |payload]; try done.
  - unfold prompt at 1. destruct inp as [|[pwd|x] inp]; cbn [ubind]; try done. destruct (_ =? _); [done|]. unfold prompt. destruct inp as [|[pw2|x] inp]; cbn [ubind]; try done.
    destruct (String.eqb _ _); cbn [negb]; [|done]. destruct (DeriveKey _ _ _ _) as [[k sa]|x|]; cbn; [|done|done]. by intros [= <- _].
  - intros H. destruct (of_outcome (IsMultiUser payload) inp) as [multi inp1|? ?| |]; try done. cbn [ubind] in H.
    destruct (if multi then prompt inp1 else UOk "" inp1) as [user inp2|? ?| |]; try done. cbn [ubind] in H.
    destruct (prompt inp2) as [pwd inp3|? ?| |]; try done. cbn [ubind] in H.
    destruct (Decrypt P _ _ _ _ _) as [[[v params] pt]|x|]; try done. unfold mbind at 1, outcome_bind at 1 in H.
    destruct (idx (Keys params) _) as [key|x|]; try done. unfold mbind at 1, outcome_bind at 1 in H.
    destruct (idx (Salts params) _) as [salt|x|]; try done. unfold mbind at 1, outcome_bind at 1 in H.
    destruct (Model_Json.New pt) as [od|x|]; try done. unfold mbind at 1, outcome_bind at 1 in H. unfold finish in H.
    destruct (match od with None => _ | Some d => _ end) as [d|x|]; try done. cbn in H. by injection H as <- _. Opaque loadBlob.
Qed.
Lemma work_read o f s inp c fl rest : s_readOnly s = true → work o f s inp ≠ (c, UOk (Some fl) rest).
Proof.
  intros Hro. unfold work. destruct (f_import f).
  - destruct (import_main _ _ _ _ _ _ _ _ _ _ _) as [s' r] eqn:E. intros [= <- ->]. by eapply import_main_read.
  - destruct (f_export f).
    + destruct (export _ _ _ _ _); [|by intros [=]..]. Transparent saveBlob. unfold saveBlob. rewrite Hro. by intros [=]. Opaque saveBlob.
    + destruct (session_main _ _ _ _ _ _ _ _ _ _) as [s' r] eqn:E. intros [= <- ->]. by eapply (main_read _ _ _ _ _ _ _ _ _ _ _ _ Hro E).
Qed.
Lemma bpass_read o f c inp : spelled (f_time f) c → c ≠ mk_civil 1 1 1 0 0 0 0 → x_file (bpass o f inp).1 = None.
Proof.
  intros Hs Hc. assert (history_at (Some c) = Some (UnixNano c)) as Hh.
  { unfold history_at. destruct (IsZero c) eqn:E; [|done]. apply IsZero_year_one in E; [done|apply Hs]. }
  unfold bpass. destruct (f_help f) eqn:Eh.
  { unfold parseCli. rewrite (time_parse_spelled _ _ Hs), Eh. by destruct (_ =? _). }
  rewrite (parse_some f c Hs Eh). destruct (f_version f); [done|]. destruct (o_terminal o); [done|]. destruct (f_gen f); [by destruct (newPassword _ _)|].
  destruct (o_abs o); [done|]. rewrite Hh. destruct (loadBlob _ _ _ _ _) as [s inp1|? ?| |] eqn:El; try done. apply loaded_read in El.
  destruct (work o f s inp1) as [csv [[fl|] r|? ?| |]] eqn:Ew; try done. by apply work_read in Ew.
Qed.

(** ** An import is saved *)

Lemma underscores_utf8 s : utf8 s → utf8 (underscores s).
Proof.
  intros (rs & Hrs & ->). induction Hrs as [|r rs Hr Hrs IH]; [apply utf8_empty|]. rewrite encode_cons.
  assert (∀ a b, underscores (a +:+ b) = underscores a +:+ underscores b) as Ha.
  { intros a b. induction a as [|c a IHa]; [done|]. cbn [underscores]. change (String ?x a +:+ b) with (String x (a +:+ b)). cbn [underscores]. by rewrite IHa. }
  rewrite Ha. apply utf8_app; [|done]. destruct (decide (r = 32%Z)) as [->|Hn]; [utf8_lit|].
  destruct (enc_shape r Hr) as (c & t & E & Hc & Ht & Hl). rewrite E.
  assert (underscores (String c t) = String c t) as ->; [|rewrite <- E; by apply utf8_rune].
  cbn [underscores]. destruct (Ascii.eqb_spec c (Zbyte 32)) as [->|]; [destruct (Hl ltac:(vm_compute; reflexivity)) as [_ Hr2]; exfalso; apply Hn; rewrite Hr2; reflexivity|]. f_equal.
  clear E Hl. induction t as [|x t IHt]; [done|]. destruct Ht as [Hx Ht]. cbn [underscores]. rewrite IHt by done.
  destruct (Ascii.eqb_spec x (Zbyte 32)) as [->|]; [|done]. exfalso. unfold cont in Hx. change (byteZ (Zbyte 32)) with 32%Z in Hx. lia.
Qed.
Lemma mcl_record lower e1 e2 r : (∀ x, utf8 x → utf8 (lower x)) → fair e1 → clock_ok e1 → utf8 (e_uuid e1) → fair e2 → clock_ok e2 → utf8 (e_uuid e2) → Forall utf8 r →
  mcl (import_record lower e1 e2 r) (λ _, True).
Proof.
  intros Hl Hf Hc Hu Hf2 Hc2 Hu2 Hr. unfold import_record.
  assert (∀ i, mcl (lift (idx r i)) utf8) as Hi.
  { intros i. apply mcl_lift. intros a E. apply idx_some' in E. rewrite Forall_lookup in Hr. by eapply Hr. }
  eapply mcl_bind; [apply Hi|]. intros name Hn. eapply (mcl_bind _ _ utf8).
  { intros d d' o Hd. unfold new_unique. destruct (newsync_loop _ _ _ _ _) as [[d1 o1]|] eqn:E; [|by intros [= <- <-]].
    intros [= <- <-]. eapply mcl_newsync; [| | | |exact Hd|exact E]; [done..|]. by apply underscores_utf8, Hl. }
  intros uuid Hu'. eapply mcl_bind; [apply Hi|]. intros user Hus. eapply mcl_bind; [apply mcl_raw_if; first [done|utf8_lit]|]. intros _ _.
  eapply mcl_bind; [apply Hi|]. intros pass Hp. eapply mcl_bind; [apply mcl_raw_if; first [done|utf8_lit]|]. intros _ _.
  eapply mcl_bind; [apply Hi|]. intros url Hur. eapply mcl_bind; [apply mcl_raw_if; first [done|utf8_lit]|]. intros _ _.
  eapply mcl_bind; [apply Hi|]. intros notes Hno. eapply mcl_bind; [apply mcl_raw_if; first [done|utf8_lit]|]. intros _ _.
  eapply mcl_bind; [apply Hi|]. intros g Hg. eapply mcl_bind; [apply Hi|]. intros fav Hfav. cbv zeta.
  assert (Forall utf8 ((if (String.length g =? 0)%nat then [] else [lower g]) ++ (if String.eqb fav "1" then ["lpfav"] else []))) as Hls.
  { apply Forall_app. split; [destruct (_ =? _); [constructor|constructor; [by apply Hl|constructor]]|]. destruct (String.eqb _ _); [|constructor]. constructor; [utf8_lit|constructor]. }
  destruct (_ ++ _) as [|x l] eqn:El; [by apply mcl_ret|]. apply mcl_set; [done..|utf8_lit|]. by apply utf8_join; [utf8_lit|].
Qed.
Lemma mcl_import lower E rs last : (∀ x, utf8 x → utf8 (lower x)) → (∀ j, fair (E j) ∧ clock_ok (E j) ∧ utf8 (e_uuid (E j))) → Forall (Forall utf8) rs →
  ∀ i fields, mcl (import_loop lower E i fields rs last) (λ _, True).
Proof.
  intros Hl HE Hrs. induction Hrs as [|r rs Hr Hrs IH]; intros i fields; cbn [import_loop]; [destruct last; [by apply mcl_lift|by apply mcl_ret]|].
  destruct (negb _); [by apply mcl_lift|]. destruct (_ && _); [by apply mcl_lift|].
  eapply mcl_bind; [apply mcl_record; try done; apply HE|]. intros _ _. apply IH.
Qed.
Lemma import_clean lower E lpass rs last s inp s' r : (∀ x, utf8 x → utf8 (lower x)) → (∀ j, fair (E j) ∧ clock_ok (E j) ∧ utf8 (e_uuid (E j))) → Forall (Forall utf8) rs →
  clean (s_db s) → importLastpass lower E lpass rs last s inp = (s', r) → clean (s_db s').
Proof.
  intros Hl HE Hrs Hc Ei. unfold importLastpass, mbind, C_bind, state in Ei.
  assert (∀ inp1 s1 r1, on_db (import_loop lower E 0 (first_fields rs) rs last) s inp1 = (s1, r1) → clean (s_db s1)) as Hon.
  { intros inp1 s1 r1 Ho. unfold on_db in Ho. destruct (import_loop _ _ _ _ _ _ _) as [d o] eqn:El. injection Ho as <- _. cbn. by eapply (mcl_import lower E rs last Hl HE Hrs). }
  destruct (s_created s).
  - unfold mret, C_ret in Ei. cbn [negb] in Ei. destruct lpass; [by injection Ei as <- _|]. by eapply Hon.
  - unfold ask, C_ret, mret in Ei. destruct (prompt inp) as [line rest'|? ?| |]; [|by injection Ei as <- _..].
    destruct (_ || _); cbn [negb] in Ei; [|by injection Ei as <- _]. destruct lpass; [by injection Ei as <- _|]. by eapply Hon.
Qed.

(** The session imports and the file is written; it opens and has what was imported. *)
Lemma import_saved P lower E rs s inp inp' e ord riv pass m : prims_ok P → length riv = 40 →
  (∀ x, utf8 x → utf8 (lower x)) → (∀ j, fair (E j) ∧ clock_ok (E j) ∧ utf8 (e_uuid (E j))) → Forall (Forall utf8) (map fields_of rs) → fresh_uuids (s_db s) E →
  good (s_db s) m → all_named m → s_readOnly s = false → single_session P s pass →
  (s_created s = true ∧ inp = inp') ∨ (s_created s = false ∧ ∃ a, (a = "y" ∨ a = "Y") ∧ inp = ILine a :: inp') →
  ∃ s' m', importLastpass lower E None (map fields_of (header_row :: rs)) None s inp = (s', UOk tt inp') ∧ imports lower E 0 (header_row :: rs) m m' ∧ holds (s_db s') m' ∧
    ((Z.of_nat (length (vis (db_log (s_db s')))) < 2 ^ 64)%Z → ∃ fl,
      import_main P lower E None (map fields_of (header_row :: rs)) None e ord (Some riv) s inp = (s', UOk (Some fl) inp') ∧ good (s_db s') m' ∧
      ∀ sp rsalt r, ∃ s2, loadBlob P (Found (mk_slice fl sp)) None rsalt (ILine pass :: r) = UOk s2 r ∧ same_store (s_db s') (s_db s2) ∧ good (s_db s2) m').
Proof.
  intros HP Hriv Hl HE Hrs Hfr Hg Ha Hro Hss Hc.
  destruct (import_ok lower E rs (s_db s) m (proj1 Hg) Ha (λ j, proj1 (HE j)) Hfr) as (m' & d' & E1 & Hi & Hh' & Ht).
  assert (importLastpass lower E None (map fields_of (header_row :: rs)) None s inp = (set_db d' s, UOk tt inp')) as Ei.
  { unfold importLastpass, mbind, C_bind, state. destruct Hc as [[-> ->]|(-> & a & Hy & ->)]; unfold mret, C_ret, ask, prompt.
    - cbn [negb]. unfold on_db. change (first_fields (map fields_of (header_row :: rs))) with 7. by rewrite E1.
    - assert (String.eqb a "Y" || String.eqb a "y" = true) as -> by (by destruct Hy as [-> | ->]). cbn [negb]. unfold on_db.
      change (first_fields (map fields_of (header_row :: rs))) with 7. by rewrite E1. }
  exists (set_db d' s), m'. split; [exact Ei|]. split; [done|]. split; [done|]. intros Hlen.
  assert (good d' m') as Hg'.
  { apply clean_good; [|done|rewrite Ht; apply Hg|done]. eapply (import_clean lower E None _ None s inp (set_db d' s)); [exact Hl|exact HE| |by eapply good_clean|exact Ei].
    rewrite map_cons. constructor; [|done]. unfold fields_of, header_row. repeat constructor; utf8_lit. }
  assert (single_session P (set_db d' s) pass) as Hs2 by exact Hss.
  destruct (single_reopen P (set_db d' s) pass m' e ord riv [] None [] HP Hg' Hro Hs2 Hriv) as (fl & _ & Ef & _).
  exists fl. split; [unfold import_main; rewrite Ei, Ef; done|]. split; [done|]. intros sp rsalt r.
  destruct (single_reopen P (set_db d' s) pass m' e ord riv sp rsalt r HP Hg' Hro Hs2 Hriv) as (fl2 & s2 & Ef2 & El & H1 & H2 & _).
  rewrite Ef in Ef2. injection Ef2 as <-. by exists s2.
Qed.
