(** A store of text stays one: the operations on the store and the dialogues. *)
From Verif Require Import Spec_Main Proof_TxLog Proof_GoStr Proof_Utf8 Proof_Trim Proof_Session Proof_Session2 Proof_Session3.
From Verif Require Export Proof_Text.
From Coq Require Import Lia.
From stdpp Require Import options.
Import Model_GoStr Proof_Utf8.
#[local] Open Scope nat_scope.

(** ** Generated passwords are ASCII *)
Definition asc (l : bytes) : Prop := Forall (λ c, (byteZ c < 128)%Z) l.
Lemma asc_utf8 l : asc l → utf8 (bytes_string l).
Proof. induction 1 as [|c l Hc Hl IH]; [apply utf8_empty|]. by apply utf8_cons. Qed.
Definition asc_str (s : string) : Prop := asc (str_bytes s).
Lemma put_asc pw off x pw' : asc pw → (byteZ x < 128)%Z → put pw off x = Ok pw' → asc pw'.
Proof. intros H Hx. unfold put. destruct (_ <? _); [|done]. intros [= <-]. by apply Forall_insert. Qed.
Lemma obind_ok {A B} (x : outcome A) (f : A → outcome B) b : mbind f x = Ok b → ∃ a, x = Ok a ∧ f a = Ok b.
Proof. destruct x; cbn; [|done|done]. eauto. Qed.
Lemma idx_some' {A} (l : list A) i x : idx l i = Ok x → l !! i = Some x.
Proof. unfold idx. destruct (l !! i); congruence. Qed.
Lemma pick_asc a b x : asc_str a → pick a b = Ok x → (byteZ x < 128)%Z.
Proof. intros H E. unfold pick in E. apply obind_ok in E as (i & _ & E). apply idx_some' in E. by apply (Forall_lookup_1 _ _ _ _ H E). Qed.
Lemma fill_asc ent n a k : asc_str a → ∀ st st', asc st.1.1 → fill ent n a k st = Ok st' → asc st'.1.1.
Proof.
  intros Ha. induction k as [|k IH]; intros [[pw off] e] st' H E; cbn [fill] in E; [by injection E as <-|].
  apply obind_ok in E as (b & _ & E). apply obind_ok in E as (x & Ex & E). apply obind_ok in E as (pw2 & Ep & E).
  apply IH in E; [done|]. eapply put_asc; [exact H| |exact Ep]. by eapply pick_asc.
Qed.
Lemma fill_all_asc ent n ps : Forall (λ p : string * Z, asc_str p.1) ps → ∀ st st', asc st.1.1 → fill_all ent n ps st = Ok st' → asc st'.1.1.
Proof.
  induction 1 as [|[a num] ps Ha Hps IH]; intros st st' H E; cbn [fill_all] in E; [by injection E as <-|].
  apply obind_ok in E as (st2 & E2 & E). apply IH in E; [done|]. by eapply fill_asc.
Qed.
Lemma fill_random_asc ent n ps k : Forall (λ p : string * Z, asc_str p.1) ps → ∀ st st', asc st.1.1 → fill_random ent n ps k st = Ok st' → asc st'.1.1.
Proof.
  intros Hps. induction k as [|k IH]; intros [[pw off] e] st' H E; cbn [fill_random] in E; [by injection E as <-|].
  apply obind_ok in E as (b & _ & E). apply obind_ok in E as (i & _ & E). apply obind_ok in E as (p & Ei & E). apply obind_ok in E as (b2 & _ & E).
  apply obind_ok in E as (x & Ex & E). apply obind_ok in E as (pw2 & Ep & E).
  apply IH in E; [done|]. eapply put_asc; [exact H| |exact Ep]. eapply pick_asc; [|exact Ex]. apply idx_some' in Ei. by apply (Forall_lookup_1 _ _ _ _ Hps Ei).
Qed.
Lemma shuffle_asc ent n len k : ∀ i pw e pw', asc pw → shuffle ent n len k i pw e = Ok pw' → asc pw'.
Proof.
  induction k as [|k IH]; intros i pw e pw' H E; cbn [shuffle] in E; [by injection E as <-|].
  apply obind_ok in E as (b & _ & E). apply obind_ok in E as (j & _ & E). apply obind_ok in E as (x & Ex & E). apply obind_ok in E as (y & Ey & E).
  apply IH in E; [done|]. apply idx_some' in Ex. apply idx_some' in Ey. apply Forall_insert; [apply Forall_insert; [done|]|].
  - by apply (Forall_lookup_1 _ _ _ _ H Ey).
  - by apply (Forall_lookup_1 _ _ _ _ H Ex).
Qed.
Lemma pairs_asc c : Forall (λ p : string * Z, asc_str p.1) (pairs c).
Proof. unfold pairs. apply Forall_forall. intros p [_ Hp]%elem_of_list_filter. revert p Hp. apply Forall_forall. repeat constructor. Qed.
Lemma genPassword_asc ent len c pw : genPassword ent len c = Ok pw → asc pw.
Proof.
  unfold genPassword. destruct (_ <? _)%Z; [done|]. cbv zeta. intros E. apply obind_ok in E as (p0 & E0 & E). apply obind_ok in E as (en & _ & E).
  assert (asc p0) as H0. { unfold make_bytes in E0. destruct (_ <? _)%Z; [done|]. injection E0 as <-. apply Forall_replicate. reflexivity. }
  destruct ent as [ent|]; [|done]. apply obind_ok in E as ([[p1 off] e] & E1 & E). destruct (_ && _); [done|].
  apply obind_ok in E as ([[p2 off2] e2] & E2 & E). eapply shuffle_asc; [|exact E].
  apply (fill_random_asc _ _ _ _ (pairs_asc c) _ _) in E2; [exact E2|]. by apply (fill_all_asc _ _ _ (pairs_asc c) _ _) in E1.
Qed.

(** ** Dialogues *)
Definition line_ok (i : input) : Prop := match i with ILine s => utf8 s | IErr _ => True end.
Definition texts (inp : list input) : Prop := Forall line_ok inp.
Lemma texts_typed inp : texts inp ↔ typed_text inp.
Proof.
  unfold texts, typed_text. rewrite Forall_forall. split; [intros H line Hl; exact (H _ Hl)|]. intros H [line|e] Hi; [by apply H|done].
Qed.
Definition told {A} (R : A → Prop) (x : ui A) : Prop :=
  match x with UOk a rest => R a ∧ texts rest | UErr _ rest => texts rest | _ => True end.
Definition asks {A} (f : list input → ui A) (R : A → Prop) : Prop := ∀ inp, texts inp → told R (f inp).
Lemma told_bind {A B} (x : ui A) (f : A → list input → ui B) (R : A → Prop) Q : told R x → (∀ a rest, R a → texts rest → told Q (f a rest)) → told Q (ubind x f).
Proof. intros Hx Hf. destruct x as [a rest|e rest| |]; [destruct Hx; by apply Hf|done|done|done]. Qed.
Lemma asks_prompt : asks prompt utf8.
Proof. intros [|[s|e] inp] H; inversion H; subst; done. Qed.
Lemma asks_prompt_end : asks prompt_end utf8.
Proof.
  intros inp H. unfold prompt_end. pose proof (asks_prompt inp H) as Hp. destruct (prompt inp) as [a rest|e rest| |]; [done| |done|done].
  destruct e; try done. split; [apply utf8_empty|done].
Qed.
Lemma asks_getString : asks getString utf8.
Proof. intros inp H. induction H as [|i inp Hi H IH]; [done|]. destruct i as [s|e]; [|done]. cbn [getString]. by destruct (_ =? _). Qed.
Lemma asks_getYesNo : asks getYesNo (λ _, True).
Proof. intros inp H. induction H as [|i inp Hi H IH]; [done|]. destruct i as [s|e]; [|done]. cbn [getYesNo]. destruct (yes_word s); [done|]. by destruct (no_word s). Qed.
Lemma asks_menu n : asks (getMenuChoice n) (λ _, True).
Proof.
  intros inp H. induction H as [|i inp Hi H IH]; [done|]. destruct i as [s|e]; [|done]. cbn [getMenuChoice]. destruct (Atoi s); [|done|done]. cbv zeta.
  by destruct (_ || _).
Qed.
Lemma asks_port : asks askPort utf8.
Proof.
  intros inp H. induction H as [|i inp Hi H IH]; [done|]. destruct i as [s|e]; [|done]. cbn [askPort]. destruct (_ =? _); [split; [utf8_lit|done]|].
  by destruct (Atoi s).
Qed.
Lemma asks_multiline inp : texts inp → ∀ lines b, Forall utf8 lines → told utf8 (multiline lines b inp).
Proof.
  assert (utf8 (String (Zbyte 10) "")) as Hn by utf8_lit.
  intros H. induction H as [|i inp Hi H IH]; intros lines b Hl; [done|]. destruct i as [s|e]; cbn [multiline].
  - destruct (String.eqb s "."); [split; [by apply utf8_join|done]|]. destruct (_ =? _).
    + destruct b; [split; [by apply utf8_join|done]|]. by apply IH.
    + apply IH. apply Forall_app. split; [|by constructor]. destruct b; [|done]. apply Forall_app. split; [done|]. constructor; [apply utf8_empty|done].
  - destruct (decide _); [split; [by apply utf8_join|done]|done].
Qed.
Lemma asks_promptMultiline : asks promptMultiline utf8.
Proof. intros inp H. by apply asks_multiline. Qed.
Lemma asks_labels upper inp : texts inp → ∀ labels ch, Forall utf8 labels → told (λ r : list string * bool, Forall utf8 r.1) (labels_loop upper labels ch inp).
Proof.
  intros H. induction H as [|i inp Hi H IH]; intros labels ch Hl; [done|]. destruct i as [s|e]; cbn [labels_loop].
  - destruct (_ || _); [done|]. destruct (validateLabel upper labels s); [|by apply IH]. apply IH. apply Forall_app. split; [done|by constructor].
  - by destruct (decide _).
Qed.
Lemma asks_gp ents inp : texts inp → ∀ calls len c pw regen tr, utf8 pw → told (λ r : string * list event, utf8 r.1) (gp_loop ents calls len c pw regen tr inp).
Proof.
  intros H. remember (length inp) as n eqn:En. revert inp H En. induction (lt_wf n) as [n _ IH]. intros inp H En calls len c pw regen tr Hp.
  assert (∀ rest, texts rest → length rest < n → ∀ calls len c pw regen tr, utf8 pw → told (λ r : string * list event, utf8 r.1) (gp_loop ents calls len c pw regen tr rest)) as IH'.
  { intros rest Hr Hn. by eapply IH. } clear IH.
  assert (∀ pw' calls' ev, gp_top ents calls len c pw regen = Ok (pw', calls', ev) → utf8 pw') as Ht.
  { intros pw' calls' ev. unfold gp_top. destruct regen; [|by intros [= <- _ _]]. destruct (genPassword (ents calls) len c) as [p|x|] eqn:Eg; [|destruct (decide _); [|done]|done].
    - intros [= <- _ _]. apply asc_utf8. by eapply genPassword_asc.
    - intros [= <- _ _]. apply utf8_empty. }
  destruct inp as [|i rest]; cbn [gp_loop]; destruct (gp_top ents calls len c pw regen) as [[[pw' calls'] ev]|x|]; try done.
  specialize (Ht _ _ _ eq_refl). inversion H as [|? ? Hi Hr]; subst. cbn [length] in IH'. destruct i as [choice|e]; [|done].
  destruct (String.eqb choice ""); [apply IH'; [done|lia|done]|]. destruct (String.eqb choice "y"); [done|].
  destruct (String.eqb choice "m").
  { destruct rest as [|[a|e] rest]; [done| |by inversion Hr]. inversion Hr as [|? ? Ha Hr']; subst. destruct rest as [|[b|e] rest]; [done| |by inversion Hr'].
    inversion Hr'; subst. destruct (String.eqb a b); [done|]. apply IH'; [done|cbn; lia|done]. }
  destruct (String.eqb choice "?"); [apply IH'; [done|lia|done]|].
  destruct (Fields choice) as [|k args]; [done|]. destruct (String.eqb k "c"); [apply IH'; [done|lia|done]|].
  destruct (set_class k (k :: args) c); [apply IH'; [done|lia|done]|]. destruct (Atoi choice); (apply IH'; [done|lia|done]).
Qed.
Lemma asks_password r : asks (newPassword r) utf8.
Proof.
  intros inp H. unfold newPassword. eapply told_bind; [apply asks_gp; [done|apply utf8_empty]|]. intros [pw tr] rest Hp Hr. done.
Qed.
Lemma asks_login l inp : texts inp → told (λ _ : list out, True) (login_loop l inp).
Proof.
  revert inp. induction l as [|[k v] l IH]; intros inp H; [done|]. cbn [login_loop]. destruct l as [|p l]; [done|].
  eapply told_bind; [by apply asks_prompt|]. intros a rest _ Hr. eapply told_bind; [by apply IH|]. done.
Qed.

(** ** Operations on the store *)
Definition mcl {A} (m : M A) (R : A → Prop) : Prop := ∀ d d' o, clean d → m d = (d', o) → clean d' ∧ ∀ a, o = Ok a → R a.
Lemma mcl_weak {A} (m : M A) (R R' : A → Prop) : (∀ a, R a → R' a) → mcl m R → mcl m R'.
Proof. intros HR H d d' o Hd E. destruct (H _ _ _ Hd E) as [H1 H2]. split; [done|]. intros a Ea. eauto. Qed.
Lemma mcl_ret {A} (a : A) (R : A → Prop) : R a → mcl (mret a) R.
Proof. intros H d d' o Hd [= <- <-]. split; [done|]. by intros ? [= <-]. Qed.
Lemma mcl_lift {A} (o : outcome A) (R : A → Prop) : (∀ a, o = Ok a → R a) → mcl (lift o) R.
Proof. intros H d d' o' Hd [= <- <-]. done. Qed.
Lemma mcl_bind {A B} (x : M A) (f : A → M B) (R : A → Prop) Q : mcl x R → (∀ a, R a → mcl (f a) Q) → mcl (mbind f x) Q.
Proof.
  intros Hx Hf d d' o Hd. unfold mbind, M_bind. destruct (x d) as [d1 [a|e|]] eqn:E; destruct (Hx _ _ _ Hd E) as [H1 H2].
  - apply Hf; [by apply H2|done].
  - by intros [= <- <-].
  - by intros [= <- <-].
Qed.
Lemma mcl_snap : mcl get_snap snapshot_utf8.
Proof. intros d d' o Hd [= <- <-]. split; [done|]. intros a [= <-]. apply Hd. Qed.
Lemma applyTx_utf8 m t m' : snapshot_utf8 m → tx_utf8 t → applyTx m t = Ok m' → snapshot_utf8 m'.
Proof.
  intros Hm (_ & Uu & Uk & Uv). unfold applyTx, getEntry. destruct (String.eqb _ TxAdd); [|destruct (String.eqb _ TxDelete); [|destruct (String.eqb _ TxSetKey); [|destruct (String.eqb _ TxDeleteKey)]]].
  - destruct (m !! tx_uuid t) eqn:E; [done|]. intros [= <-] u e H. apply lookup_insert_Some in H as [[<- <-]|[_ H]]; [|by apply Hm].
    split; [done|]. intros k v H. by rewrite lookup_empty in H.
  - destruct (m !! tx_uuid t) eqn:E; [|done]. intros [= <-] u e0 H. apply lookup_delete_Some in H as [_ H]. by apply Hm.
  - destruct (m !! tx_uuid t) as [e|] eqn:E; [|done]. intros [= <-] u e0 H. apply lookup_insert_Some in H as [[<- <-]|[_ H]]; [|by apply Hm].
    split; [done|]. destruct (Hm _ _ E) as [_ He]. intros k v H. apply lookup_insert_Some in H as [[<- <-]|[_ H]]; [done|by apply He].
  - destruct (m !! tx_uuid t) as [e|] eqn:E; [|done]. intros [= <-] u e0 H. apply lookup_insert_Some in H as [[<- <-]|[_ H]]; [|by apply Hm].
    split; [done|]. destruct (Hm _ _ E) as [_ He]. intros k v H. apply lookup_delete_Some in H as [_ H]. by apply He.
  - by intros [= <-].
Qed.
Lemma apply_loop_utf8 l : Forall tx_utf8 l → ∀ m v m' v' r, snapshot_utf8 m → apply_loop m v l = (m', v', r) → snapshot_utf8 m'.
Proof.
  induction 1 as [|t l Ht Hl IH]; intros m v m' v' r Hm; cbn [apply_loop]; [by intros [= <- _ _]|].
  destruct (applyTx m t) as [m1|e|] eqn:E; [|by intros [= <- _ _]..]. apply IH. by eapply applyTx_utf8.
Qed.
Lemma mcl_update : mcl UpdateSnapshot (λ _, True).
Proof.
  intros d d' o (H1 & H2 & H3). unfold UpdateSnapshot. cbv zeta. destruct (_ <=? _); [by intros [= <- <-]|].
  destruct (apply_loop _ _ _) as [[m v] r] eqn:E. intros [= <- <-]. split; [|done]. split; [|done]. unfold snap_of. cbn [db_snapshot default].
  eapply apply_loop_utf8; [|exact H1|exact E]. apply Forall_drop. eapply Forall_impl; [exact H2|]. by intros t [? _].
Qed.
Lemma clean_append g now d t : clean d → tx_utf8 t → in_int64 now → clean (appendLog g now d t).
Proof.
  intros (H1 & H2 & H3) Ht Hn. unfold appendLog. split; [done|]. cbn [db_log db_txpoint]. rewrite slice_append_vis. split.
  - apply Forall_app. split; [done|]. constructor; [|done]. split; [exact Ht|exact Hn].
  - rewrite app_length. cbn. lia.
Qed.
Section env.
  Context (e : env) (Hf : fair e) (Hc : clock_ok e) (Hu : utf8 (e_uuid e)).
  #[local] Set Default Proof Using "Hf Hc Hu".
  Lemma mcl_set i u k v : utf8 u → utf8 k → utf8 v → mcl (dbSet e i u k v) (λ _, True).
  Proof. intros U K V d d' o Hd [= <- <-]. split; [|done]. apply clean_append; [done| |apply Hc]. split; [cbn [tx_kind]; utf8_lit|done]. Qed.
  Lemma mcl_delk i u k : utf8 u → utf8 k → mcl (dbDeleteKey e i u k) (λ _, True).
  Proof. intros U K d d' o Hd [= <- <-]. split; [|done]. apply clean_append; [done| |apply Hc]. split; [cbn [tx_kind]; utf8_lit|]. split; [done|]. split; [done|apply utf8_empty]. Qed.
  Lemma mcl_del i u : utf8 u → mcl (dbDelete e i u) (λ _, True).
  Proof. intros U d d' o Hd [= <- <-]. split; [|done]. apply clean_append; [done| |apply Hc]. split; [cbn [tx_kind]; utf8_lit|]. split; [done|]. split; apply utf8_empty. Qed.
  Lemma mcl_add i : mcl (modify (Model_TxLog.Add (e_grow e i) (e_now e i) (e_uuid e))) (λ _, True).
  Proof. intros d d' o Hd [= <- <-]. split; [|done]. apply clean_append; [done| |apply Hc]. split; [cbn [tx_kind]; utf8_lit|]. split; [done|]. split; apply utf8_empty. Qed.
  Lemma mcl_touch i u : utf8 u → mcl (touchUpdated e i u) (λ _, True).
  Proof. intros U. apply mcl_set; [done|utf8_lit|apply utf8_FormatInt]. Qed.
  Lemma mcl_New j n : utf8 n → mcl (Model_Blobs.New e j n) utf8.
  Proof.
    intros N. unfold Model_Blobs.New. eapply mcl_bind; [apply mcl_update|]. intros _ _. eapply mcl_bind; [apply mcl_snap|]. intros m Hm.
    eapply mcl_bind; [apply (mcl_lift _ (λ _, True)); done|]. intros [] _; [by apply mcl_lift|].
    eapply mcl_bind; [apply mcl_add|]. intros _ _. eapply mcl_bind; [by apply mcl_touch|]. intros _ _.
    eapply mcl_bind; [apply mcl_set; [done|utf8_lit|done]|]. intros _ _. by apply mcl_ret.
  Qed.
  Lemma mcl_Rename u n : utf8 u → utf8 n → mcl (Rename e u n) (λ _, True).
  Proof.
    intros U N. unfold Rename. eapply mcl_bind; [apply mcl_update|]. intros _ _. eapply mcl_bind; [apply mcl_snap|]. intros m Hm.
    eapply mcl_bind; [apply (mcl_lift _ (λ _, True)); done|]. intros [] _; [by apply mcl_lift|].
    destruct (m !! u); [|by apply mcl_lift]. eapply mcl_bind; [by apply mcl_touch|]. intros _ _. apply mcl_set; [done|utf8_lit|done].
  Qed.
  Lemma mcl_Set_key i u k v : utf8 u → utf8 k → utf8 v → mcl (Set_key e i u k v) (λ _, True).
  Proof. intros U K V. unfold Set_key. destruct (existsb _ _); [by apply mcl_lift|]. eapply mcl_bind; [by apply mcl_touch|]. intros _ _. by apply mcl_set. Qed.
  Lemma mcl_DeleteKey u k : utf8 u → utf8 k → mcl (DeleteKey_key e u k) (λ _, True).
  Proof. intros U K. unfold DeleteKey_key. destruct (_ || _); [by apply mcl_lift|]. eapply mcl_bind; [by apply mcl_touch|]. intros _ _. by apply mcl_delk. Qed.
  Lemma mcl_two coerce ok u x : utf8 u → utf8 x → (∀ a b, utf8 a → utf8 b → utf8 (coerce a b)) → mcl (SetTwofactor coerce ok e u x) (λ _, True).
  Proof.
    intros U X Hco. unfold SetTwofactor. cbv zeta. destruct (ok _); [|by apply mcl_lift]. eapply mcl_bind; [by apply mcl_touch|]. intros _ _.
    apply mcl_set; [done|utf8_lit|]. destruct (has_prefix _ _); [done|by apply Hco].
  Qed.
  Lemma mcl_Find u : mcl (Find u) (λ b, ∀ x, b = Some x → entry_utf8 x).
  Proof.
    unfold Find. eapply mcl_bind; [apply mcl_update|]. intros _ _. eapply mcl_bind; [apply mcl_snap|]. intros m Hm. apply mcl_ret. intros x E. by apply (Hm u).
  Qed.
  Lemma mcl_MustFind u : mcl (MustFind u) entry_utf8.
  Proof. unfold MustFind. eapply mcl_bind; [apply mcl_Find|]. intros [b|] Hb; [apply mcl_ret; by apply Hb|by apply mcl_lift]. Qed.
  Lemma ord_utf8 j m u b : snapshot_utf8 m → (u, b) ∈ e_ord e j m → utf8 u ∧ entry_utf8 b.
  Proof. intros Hm Hin. rewrite (Hf j m) in Hin. apply elem_of_map_to_list in Hin. by apply Hm. Qed.
  Lemma find_name_in n l u b : find_name n l = Ok (Some (u, b)) → (u, b) ∈ l.
  Proof.
    induction l as [|[u1 b1] l IH]; [done|]. cbn [find_name]. destruct (Name b1) as [n1|x|]; [|done|done]. destruct (String.eqb n1 n); [intros [= <- <-]; by left|].
    intros H. right. by apply IH.
  Qed.
  Lemma mcl_FindByName n : mcl (FindByName e n) (λ r, ∀ u b, r = Some (u, b) → utf8 u).
  Proof.
    unfold FindByName. eapply mcl_bind; [apply mcl_update|]. intros _ _. eapply mcl_bind; [apply mcl_snap|]. intros m Hm. apply mcl_lift.
    intros r E u b ->. apply find_name_in in E. by apply (ord_utf8 _ _ _ _ Hm) in E as [? _].
  Qed.
  Lemma mcl_MustFindUser n : mcl (MustFindUser e n) (λ r, utf8 r.1).
  Proof.
    unfold MustFindUser, FindUser. eapply mcl_bind; [apply mcl_FindByName|]. intros [[u b]|] Hr; [|by apply mcl_lift].
    destruct (String.eqb u ""); [by apply mcl_lift|]. apply mcl_ret. by apply (Hr u b).
  Qed.
  Definition res_utf8 (r : results) : Prop := ∀ u n, res_map r !! u = Some n → utf8 u.
  Lemma collect_utf8 keep l : (∀ u b, (u, b) ∈ l → utf8 u) → ∀ acc r, (∀ u n, acc !! u = Some n → utf8 u) → collect keep l acc = Ok r → ∀ u n, r !! u = Some n → utf8 u.
  Proof.
    induction l as [|[u1 b1] l IH]; intros Hl acc r Ha; cbn [collect]; [intros [= <-]; exact Ha|].
    assert (∀ u b, (u, b) ∈ l → utf8 u) as Hl' by (intros u b Hin; apply (Hl u b); by right).
    destruct (keep u1 b1) as [[]|x|]; [|by apply IH|done|done]. destruct (Name b1) as [n1|x|]; [|done|done]. apply IH; [done|].
    intros u n H. apply lookup_insert_Some in H as [[<- <-]|[_ H]]; [|by apply (Ha u n)]. apply (Hl u1 b1). by left.
  Qed.
  Lemma coll keep j m r : snapshot_utf8 m → collect keep (e_ord e j m) ∅ = Ok r → ∀ u n, r !! u = Some n → utf8 u.
  Proof.
    intros Hm. apply collect_utf8.
    - intros u b Hin. by apply (ord_utf8 _ _ _ _ Hm) in Hin as [? _].
    - intros u n H. by rewrite lookup_empty in H.
  Qed.
  Lemma no_res : res_utf8 None.
  Proof. intros u n H. cbn in H. by rewrite lookup_empty in H. Qed.
  Lemma all_utf8 j m r : snapshot_utf8 m → allEntries (e_ord e j m) = Ok r → res_utf8 r.
  Proof.
    intros Hm. unfold allEntries. destruct (e_ord e j m) as [|p l] eqn:E; [intros [= <-]; apply no_res|]. rewrite <-E.
    destruct (collect _ _ _) as [r'|x|] eqn:Er; [|done|done]. intros [= <-]. exact (coll _ _ _ _ Hm Er).
  Qed.
  Lemma mcl_Search lower q : mcl (Search lower e q) res_utf8.
  Proof.
    unfold Search. eapply mcl_bind; [apply mcl_update|]. intros _ _. eapply mcl_bind; [apply mcl_snap|]. intros m Hm. cbv zeta.
    destruct (_ =? _); [apply mcl_ret, no_res|]. destruct (String.eqb q ""); apply mcl_lift; intros r Er; [by eapply all_utf8|].
    destruct (collect _ _ _) as [r'|x|] eqn:E; [|done|done]. injection Er as <-. exact (coll _ _ _ _ Hm E).
  Qed.
  Lemma mcl_SearchLabels ls : mcl (SearchLabels e ls) res_utf8.
  Proof.
    unfold SearchLabels. eapply mcl_bind; [apply mcl_update|]. intros _ _. eapply mcl_bind; [apply mcl_snap|]. intros m Hm. cbv zeta.
    destruct (_ =? _); [apply mcl_ret, no_res|]. destruct ls; apply mcl_lift; intros r Er; [by eapply all_utf8|].
    destruct (collect _ _ _) as [r'|x|] eqn:E; [|done|done]. injection Er as <-. exact (coll _ _ _ _ Hm E).
  Qed.
  Lemma mcl_Users : mcl (Model_Blobs.Users e) res_utf8.
  Proof.
    unfold Model_Blobs.Users. eapply mcl_bind; [apply mcl_update|]. intros _ _. eapply mcl_bind; [apply mcl_snap|]. intros m Hm. apply mcl_lift. intros r Er.
    destruct (collect _ _ _) as [r'|x|] eqn:E; [|done|done]. destruct (_ =? _); injection Er as <-; [apply no_res|]. exact (coll _ _ _ _ Hm E).
  Qed.
  Lemma labels_utf8 b : entry_utf8 b → Forall utf8 (split_on (Zbyte 44) (default "" (b !! KeyLabels))).
  Proof.
    intros Hb. apply utf8_split_on; [reflexivity|]. destruct (b !! KeyLabels) as [v|] eqn:E; [by apply (Hb _ _ E)|apply utf8_empty].
  Qed.
  Lemma mcl_RemoveLabel u i : utf8 u → mcl (RemoveLabel e u i) (λ _, True).
  Proof.
    intros U. unfold RemoveLabel. eapply mcl_bind; [apply mcl_MustFind|]. intros b Hb. cbv zeta. apply labels_utf8 in Hb.
    destruct (_ <=? _)%Z; [by apply mcl_lift|]. destruct (_ =? _); [apply mcl_delk; [done|utf8_lit]|]. destruct (_ <? _)%Z; [by apply mcl_lift|].
    eapply mcl_bind; [by apply mcl_touch|]. intros _ _. apply mcl_set; [done|utf8_lit|]. apply utf8_join; [utf8_lit|]. apply Forall_drop.
    unfold shift_down. apply Forall_app. split; [by apply Forall_take|]. apply Forall_app. split; by apply Forall_drop.
  Qed.
  Lemma mcl_newsync f : ∀ j n d d' o, utf8 n → clean d → newsync_loop f e j n d = Some (d', o) → clean d' ∧ ∀ a, o = Ok a → utf8 a.
  Proof.
    induction f as [|f IH]; intros j n d d' o N Hd; [done|]. cbn [newsync_loop]. destruct (Model_Blobs.New e j n d) as [d1 o1] eqn:E.
    destruct (mcl_New j n N d d1 o1 Hd E) as [H1 H2].
    destruct o1 as [u|x|]; [by intros [= <- <-]| |by intros [= <- <-]]. destruct x; try by intros [= <- <-]. intros H. apply IH in H; [done| |done].
    apply utf8_app; [done|utf8_lit].
  Qed.
  Lemma mcl_findOne lower ord q : fair_results ord → mcl (findOne lower ord e q) utf8.
  Proof.
    intros Ho. unfold findOne. eapply mcl_bind; [apply mcl_Search|]. intros r Hr. cbv zeta.
    assert (∀ u n, (u, n) ∈ ord (res_map r) → utf8 u) as Hin. { intros u n H. rewrite (Ho _) in H. apply elem_of_map_to_list in H. by apply (Hr u n). }
    assert (∀ l, (∀ u n, (u, n) ∈ l → utf8 u) → utf8 (exact_name q l)) as Hx.
    { intros l. induction l as [|[u n] l IH]; intros Hl; [apply utf8_empty|]. cbn [exact_name]. destruct (String.eqb n q); [apply (Hl u n); by left|].
      apply IH. intros u' n' H. apply (Hl u' n'). by right. }
    destruct (ord (res_map r)) as [|[u n] [|p l]]; apply mcl_ret; [apply utf8_empty|apply (Hin u n); by left|by apply Hx].
  Qed.
  Lemma mcl_put i u salt iv mkey : utf8 u → mcl (put_row e i u salt iv mkey) (λ _, True).
  Proof.
    intros U. unfold put_row. eapply mcl_bind; [apply mcl_set; [done|utf8_lit|apply utf8_hex]|]. intros _ _.
    eapply mcl_bind; [apply mcl_set; [done|utf8_lit|apply utf8_hex]|]. intros _ _. apply mcl_set; [done|utf8_lit|apply utf8_hex].
  Qed.
  Lemma mcl_raw_if i u k v : utf8 u → utf8 k → utf8 v → mcl (raw_if e i u k v) (λ _, True).
  Proof. intros U K V. unfold raw_if. destruct (_ =? _); [by apply mcl_ret|]. by apply mcl_set. Qed.
End env.
Lemma mcl_dropping m : mcl m (λ _, True) → mcl (dropping m) (λ _, True).
Proof. intros H d d' o Hd. unfold dropping. destruct (m d) as [d1 [a|x|]] eqn:E; destruct (H _ _ _ Hd E); by intros [= <- <-]. Qed.
