From Verif Require Import Proof_GoStr Proof_Crypt2.
From Verif Require Export Proof_PassGen2 Spec_Dialogue.
From Coq Require Import Lia.
From stdpp Require Import options.
#[local] Open Scope nat_scope.

(** ** promptMultiline *)

Lemma ml_body_cons x l : ml_body (x :: l) ↔ x ≠ "." ∧ ¬ (x = "" ∧ head l = Some "") ∧ ml_body l.
Proof.
  unfold ml_body. split.
  - intros [H1 H2]. rewrite not_elem_of_cons in H1. destruct H1 as [H1 H1']. repeat split; [congruence| |done|].
    + intros [-> Hh]. apply (H2 0). destruct l; [done|]. done.
    + intros i Hi. by apply (H2 (S i)).
  - intros (H1 & H2 & H3 & H4). split; [apply not_elem_of_cons; split; congruence|].
    intros [|i] [Ha Hb]; [|by apply (H4 i)]. apply H2. cbn in Ha. split; [congruence|]. destruct l; [done|]. done.
Qed.
Lemma ml_body_nil : ml_body [].
Proof. split; [apply not_elem_of_nil|]. intros i [? _]. done. Qed.
Lemma ml_body_app_l l k : ml_body (l ++ k) → ml_body l.
Proof.
  intros [H1 H2]. split; [rewrite elem_of_app in H1; tauto|]. intros i [Ha Hb]. apply (H2 i).
  split; by apply lookup_app_l_Some.
Qed.

Definition b2l (b : bool) : list string := if b then [""] else [].

Lemma length_0_empty s : (String.length s =? 0) = bool_decide (s = "").
Proof. by destruct s. Qed.

Lemma multiline_run pre : ∀ acc b tail, ml_body (b2l b ++ pre) →
  ∃ acc' b', acc' ++ b2l b' = acc ++ b2l b ++ pre ∧ (last (b2l b ++ pre) = Some "" → b' = true) ∧
    multiline acc b ((ILine <$> pre) ++ tail) = multiline acc' b' tail.
Proof.
  induction pre as [|x pre IH]; intros acc b tail Hb.
  - exists acc, b. rewrite app_nil_r. split; [done|]. split; [by destruct b|done].
  - assert (x ≠ ".") as Hx. { destruct Hb as [Hb _]. intros ->. apply Hb. apply elem_of_app. right. left. }
    cbn [fmap list_fmap app multiline]. rewrite (proj2 (String.eqb_neq _ _) Hx), length_0_empty.
    destruct (decide (x = "")) as [->|Hne].
    + rewrite bool_decide_true by done. destruct b.
      { exfalso. cbn [b2l app] in Hb. apply ml_body_cons in Hb as (_ & Hb & _). by apply Hb. }
      destruct (IH acc true tail) as (acc' & b' & E & El & Em); [done|]. exists acc', b'. split; [|done].
      rewrite E. done.
    + rewrite bool_decide_false by done.
      destruct (IH ((if b then acc ++ [""] else acc) ++ [x]) false tail) as (acc' & b' & E & El & Em).
      { cbn [b2l app]. destruct b; cbn [b2l app] in Hb; [apply ml_body_cons in Hb as (_ & _ & Hb)|]; by apply ml_body_cons in Hb as (_ & _ & Hb). }
      exists acc', b'. split; [|split; [|done]].
      * rewrite E. destruct b; cbn [b2l app]; rewrite <-!(assoc_L (++)); done.
      * intros Hl. apply El. cbn [b2l app]. destruct b; cbn [b2l app] in Hl; rewrite ?last_cons_cons, last_cons in Hl; destruct (last pre); congruence.
Qed.

Lemma multiline_end t rest : ml_end t → ∀ acc, multiline acc false (t ++ rest) = UOk (go_join newline acc) rest.
Proof. intros [->|[->| ->]] acc; done. Qed.

Lemma promptMultiline_typed pre t rest : ml_body pre → last pre ≠ Some "" → ml_end t →
  promptMultiline ((ILine <$> pre) ++ t ++ rest) = UOk (go_join newline pre) rest.
Proof.
  intros Hb Hl Ht. unfold promptMultiline. destruct (multiline_run pre [] false (t ++ rest)) as (acc' & b' & E & _ & ->); [done|].
  cbn [b2l app] in E. destruct b'; cbn [b2l] in E.
  - exfalso. apply Hl. rewrite <-E. apply last_snoc.
  - rewrite app_nil_r in E. subst acc'. by apply multiline_end.
Qed.
Lemma promptMultiline_blank pre t rest : ml_body (pre ++ [""]) → t = ILine "." ∨ t = IErr EEnd →
  promptMultiline ((ILine <$> pre ++ [""]) ++ t :: rest) = UOk (go_join newline pre) rest.
Proof.
  intros Hb Ht. unfold promptMultiline. destruct (multiline_run (pre ++ [""]) [] false (t :: rest)) as (acc' & b' & E & El & ->); [done|].
  cbn [b2l app] in E, El. rewrite (El ltac:(apply last_snoc)) in *. cbn [b2l] in E. apply app_inj_tail in E as [-> _]. by destruct Ht as [->| ->].
Qed.

(** Everything that can come out. *)
Lemma multiline_inv inp : ∀ acc b, match multiline acc b inp with
  | UOk s rest => ∃ pre t acc' b', inp = (ILine <$> pre) ++ t :: rest ∧ ml_body (b2l b ++ pre) ∧ acc' ++ b2l b' = acc ++ b2l b ++ pre ∧
      s = go_join newline acc' ∧ (t = ILine "." ∨ t = IErr EEnd ∨ (b' = true ∧ t = ILine ""))
  | UErr e rest => ∃ pre, inp = (ILine <$> pre) ++ IErr e :: rest ∧ ml_body (b2l b ++ pre) ∧ e ≠ EEnd
  | UPanic => False
  | UWait => ∃ pre, inp = ILine <$> pre ∧ ml_body (b2l b ++ pre)
  end.
Proof.
  assert (∀ b, ml_body (b2l b)) as Hb0.
  { intros []; cbn [b2l]; [|apply ml_body_nil]. apply ml_body_cons. split; [done|]. split; [|apply ml_body_nil]. naive_solver. }
  induction inp as [|i inp IH]; intros acc b; cbn [multiline].
  { exists []. rewrite app_nil_r. done. }
  destruct i as [line|e].
  - destruct (String.eqb line ".") eqn:E1; [apply String.eqb_eq in E1 as ->|apply String.eqb_neq in E1].
    { exists [], (ILine "."), acc, b. rewrite !app_nil_r. repeat split; auto; apply Hb0. }
    rewrite length_0_empty. destruct (bool_decide (line = "")) eqn:E2; [apply bool_decide_eq_true in E2 as ->|apply bool_decide_eq_false in E2].
    + destruct b.
      { exists [], (ILine ""), acc, true. rewrite !app_nil_r. repeat split; auto; apply (Hb0 true). }
      specialize (IH acc true). cbn [b2l app] in *. destruct (multiline acc true inp) as [s rest|e rest| |].
      * destruct IH as (pre & t & acc' & b' & -> & Hm & E & Hs & Ht). exists ("" :: pre), t, acc', b'. done.
      * destruct IH as (pre & -> & Hm & E). exists ("" :: pre). done.
      * done.
      * destruct IH as (pre & -> & Hm). exists ("" :: pre). done.
    + assert (∀ pre, ml_body pre → ml_body (b2l b ++ line :: pre)) as Hbody.
      { intros pre Hm. assert (ml_body (line :: pre)) as Hm2 by (apply ml_body_cons; naive_solver).
        destruct b; cbn [b2l app]; [|done]. apply ml_body_cons. split; [done|]. split; [|done]. intros [_ H]. cbn in H. congruence. }
      specialize (IH ((if b then acc ++ [""] else acc) ++ [line]) false). cbn [b2l app] in IH.
      destruct (multiline _ false inp) as [s rest|e rest| |].
      * destruct IH as (pre & t & acc' & b' & -> & Hm & E & Hs & Ht). exists (line :: pre), t, acc', b'.
        split; [done|]. split; [by apply Hbody|]. split; [|done]. rewrite E. destruct b; cbn [b2l app]; rewrite <-!(assoc_L (++)); done.
      * destruct IH as (pre & -> & Hm & E). exists (line :: pre). auto.
      * done.
      * destruct IH as (pre & -> & Hm). exists (line :: pre). auto.
  - destruct (decide (e = EEnd)) as [->|Hne].
    + exists [], (IErr EEnd), acc, b. rewrite !app_nil_r. repeat split; auto; apply Hb0.
    + exists []. rewrite app_nil_r. auto.
Qed.

(** ** The small prompts *)
Lemma getString_spec inp s rest : getString inp = UOk s rest ↔
  ∃ k, inp = replicate k (ILine "") ++ ILine s :: rest ∧ s ≠ "".
Proof.
  split.
  - induction inp as [|[x|e] inp IH]; cbn [getString]; [done| |done]. rewrite length_0_empty.
    destruct (bool_decide (x = "")) eqn:E; [apply bool_decide_eq_true in E as ->|apply bool_decide_eq_false in E].
    + intros H. destruct (IH H) as (k & -> & Hs). exists (S k). done.
    + intros [= -> ->]. exists 0. done.
  - intros (k & -> & Hs). induction k as [|k IH]; cbn [replicate app getString].
    + rewrite length_0_empty, bool_decide_false by done. done.
    + done.
Qed.
Lemma getMenuChoice_range n inp i rest : getMenuChoice n inp = UOk i rest → (0 ≤ i < Z.of_nat n)%Z.
Proof.
  induction inp as [|[x|e] inp IH]; cbn [getMenuChoice]; [done| |done].
  destruct (Atoi x) as [z| |]; [|done|done]. destruct (_ || _) eqn:E; [done|]. intros [= <- _].
  apply orb_false_iff in E as [E1 E2]. apply Z.ltb_ge in E1. apply Z.leb_gt in E2. lia.
Qed.
Lemma getMenuChoice_typed n i rest : (0 ≤ i < Z.of_nat n)%Z → (Z.of_nat n < 2 ^ 63)%Z →
  getMenuChoice n (ILine (FormatInt (i + 1)) :: rest) = UOk i rest.
Proof.
  intros Hi Hn. cbn [getMenuChoice]. unfold Atoi. rewrite ParseInt_FormatInt by (unfold in_int64; lia).
  replace (i + 1 - 1)%Z with i by lia. rewrite wrap64_id by lia.
  rewrite (proj2 (Z.ltb_ge _ _)) by lia. destruct (Z.of_nat n <=? i)%Z eqn:E; [apply Z.leb_le in E; lia|]. done.
Qed.

(** ** getPassword *)
Definition ok_settings (len : Z) (c : classes) : Prop :=
  ((len ≤ 0 ∨ len mod 256 ≠ 0) ∧ len < 2 ^ 60)%Z ∧
  (c_upper c < 2 ^ 60)%Z ∧ (c_lower c < 2 ^ 60)%Z ∧ (c_numbers c < 2 ^ 60)%Z ∧ (c_basic c < 2 ^ 60)%Z ∧ (c_extra c < 2 ^ 60)%Z.
Lemma ok_no_overflow len c : ok_settings len c → no_overflow len c.
Proof.
  intros ([_ H0] & H). split; [|lia]. unfold minima, class_list. cbn [foldr]. lia.
Qed.

(** What the top of the loop can do. *)
Definition top_good (len : Z) (c : classes) (pw : string) (tr : list event) : Prop :=
  meets len c (str_bytes pw) ∨ (pw = "" ∧ Impossible len c ∈ tr).

Lemma gp_top_cases ents calls len c pw regen tr : ok_settings len c → (regen = false → top_good len c pw tr) →
  match gp_top ents calls len c pw regen with
  | Panic => False
  | Fail e => e = EMsg "randomness" ∧ ents calls = None
  | Ok (pw', calls', ev) => top_good len c pw' (tr ++ [ev]) ∧
      ((ev = Shown len c pw') ∨ (ev = Impossible len c ∧ pw' = ""))
  end.
Proof.
  intros Hok Hreg. pose proof (ok_no_overflow _ _ Hok) as Ho. unfold gp_top. destruct regen.
  - pose proof (genPassword_cases (ents calls) len c Ho) as H. cbn zeta in H.
    destruct (genPassword (ents calls) len c) as [p|e|] eqn:E.
    + split; [|by left]. left. unfold bytes_string, str_bytes. rewrite String.list_ascii_of_string_of_list_ascii.
      destruct (decide _) as [|Hge]; [done|]. destruct (ents calls) as [ent|]; [|done].
      destruct (decide _) as [->|]; [injection H as ->; apply meets_nil; lia|].
      destruct (decide _); [done|]. destruct (decide _); [done|]. by destruct H as (pw' & [= ->] & H).
    + assert (e = ENotEnoughSpace ∨ e = EMsg "randomness" ∧ ents calls = None) as [->|[-> He]].
      { destruct (decide _); [left; congruence|]. destruct (ents calls); [|right; split; [congruence|done]].
        destruct (decide _); [done|]. destruct (decide _); [left; congruence|]. destruct (decide _); [done|]. by destruct H as (pw' & ? & H). }
      * rewrite decide_True by done. split; [|by right]. right. split; [done|]. apply elem_of_app. right. left.
      * rewrite decide_False by done. done.
    + destruct Hok as ([Hm Hl] & _). pose proof (minima_nonneg c).
      destruct (decide _); [done|]. destruct (ents calls); [|done].
      destruct (decide _); [done|]. destruct (decide _); [done|]. destruct (decide _); [lia|]. by destruct H as (pw' & ? & H).
  - split; [|by left]. destruct (Hreg eq_refl) as [H|[-> H]]; [by left|]. right. split; [done|]. apply elem_of_app. by left.
Qed.

Lemma setSetting_small s n : tame_line s → (n < 2 ^ 60)%Z → (setSetting (Fields s) n < 2 ^ 60)%Z.
Proof.
  intros (_ & _ & H) Hn. unfold setSetting. destruct (Fields s) as [|k [|a l]] eqn:E.
  - destruct (0 <=? n)%Z; lia.
  - destruct (0 <=? n)%Z; lia.
  - destruct (Atoi a) as [i| |] eqn:Ea; [|done|done]. by eapply H.
Qed.
Lemma set_class_ok len c c' k s : tame_line s → ok_settings len c → set_class k (Fields s) c = Some c' → ok_settings len c'.
Proof.
  intros Ht (H0 & H1 & H2 & H3 & H4 & H5). unfold set_class. split; [done|]. revert H.
  repeat (destruct (String.eqb _ _); [intros [= <-]; cbn; repeat split; try done; by apply setSetting_small|]). done.
Qed.

Definition gp_ok (ents : nat → option (nat → byte)) (inp : list input) (r : ui (string * list event)) : Prop :=
  match r with
  | UPanic => False
  | UWait => True
  | UErr e rest => IErr e ∈ inp ∨ (e = EMsg "randomness" ∧ ∃ n, ents n = None)
  | UOk (pw, tr) rest =>
      (∀ len c p, Shown len c p ∈ tr → meets len c (str_bytes p) ∨ (p = "" ∧ Impossible len c ∈ tr)) ∧
      ((∃ pre, inp = pre ++ ILine "m" :: ILine pw :: ILine pw :: rest ∧ last tr = Some (Entered pw)) ∨
       (∃ pre len c, inp = pre ++ ILine "y" :: rest ∧
          (last tr = Some (Shown len c pw) ∨ (last tr = Some (Impossible len c) ∧ pw = ""))))
  end.

Definition shown_ok (tr : list event) : Prop :=
  ∀ len c p, Shown len c p ∈ tr → meets len c (str_bytes p) ∨ (p = "" ∧ Impossible len c ∈ tr).

Lemma gp_ok_skip ents pre inp r : gp_ok ents inp r → gp_ok ents (pre ++ inp) r.
Proof.
  destruct r as [[pw tr] rest|e rest| |]; cbn [gp_ok]; [|rewrite elem_of_app; tauto|done|done].
  intros [H1 H2]. split; [done|]. destruct H2 as [(p & -> & H2)|(p & len & c & -> & H2)].
  - left. exists (pre ++ p). by rewrite (assoc_L (++)).
  - right. exists (pre ++ p), len, c. by rewrite (assoc_L (++)).
Qed.

Lemma gp_loop_ok ents n : ∀ inp calls len c pw regen tr, length inp ≤ n → tame inp → ok_settings len c →
  (regen = false → top_good len c pw tr) → shown_ok tr →
  gp_ok ents inp (gp_loop ents calls len c pw regen tr inp).
Proof.
  induction n as [|n IH]; intros inp calls len c pw regen tr Hn Ht Hok Hreg Hsh;
    pose proof (gp_top_cases ents calls len c pw regen tr Hok Hreg) as Htop;
    (destruct inp as [|i inp]; cbn [gp_loop]; destruct (gp_top ents calls len c pw regen) as [[[pw' calls'] ev]|e|]; [done|right; naive_solver|done|..]).
  1-3: simpl in Hn; lia.
  2: { right. naive_solver. }
  2: done.
  simpl in Hn. destruct Htop as [Hgood Hev].
  assert (shown_ok (tr ++ [ev])) as Hsh'.
  { intros l0 c0 p0 Hin. apply elem_of_app in Hin as [Hin|Hin].
    - destruct (Hsh _ _ _ Hin) as [?|[-> ?]]; [by left|]. right. split; [done|]. apply elem_of_app. by left.
    - apply elem_of_list_singleton in Hin as <-. destruct Hev as [[= -> -> ->]|[? _]]; [|done]. done. }
  assert (tame inp) as Ht'. { intros s Hs. apply Ht. by right. }
  destruct i as [choice|e]; [|left; left].
  assert (tame_line choice) as Htl by (apply Ht; left).
  assert (∀ calls len c pw regen tr, ok_settings len c → (regen = false → top_good len c pw tr) → shown_ok tr →
    gp_ok ents (ILine choice :: inp) (gp_loop ents calls len c pw regen tr inp)) as IH1.
  { intros. apply (gp_ok_skip ents [ILine choice]). apply IH; done || lia. }
  destruct (String.eqb choice "") eqn:E0; [by apply IH1|]. apply String.eqb_neq in E0.
  destruct (String.eqb choice "y") eqn:E1.
  { apply String.eqb_eq in E1 as ->. split; [done|]. right. exists [], len, c. split; [done|]. rewrite last_snoc. destruct Hev as [->|[-> ->]]; auto. }
  destruct (String.eqb choice "m") eqn:E2.
  { apply String.eqb_eq in E2 as ->. destruct inp as [|[initial|e] inp]; [done| |by left; right; left].
    destruct inp as [|[verify|e] inp]; [done| |by left; right; right; left].
    destruct (String.eqb initial verify) eqn:E3.
    - apply String.eqb_eq in E3 as ->. split.
      + intros l0 c0 p0 Hin. apply elem_of_app in Hin as [Hin|Hin]; [|by apply elem_of_list_singleton in Hin].
        destruct (Hsh' _ _ _ Hin) as [?|[-> ?]]; [by left|]. right. split; [done|]. apply elem_of_app. by left.
      + left. exists []. split; [done|]. apply last_snoc.
    - apply (gp_ok_skip ents [ILine "m"; ILine initial; ILine verify]). simpl in Hn. apply IH; try done; [lia|].
      intros s Hs. apply Ht'. by right; right. }
  destruct (String.eqb choice "?"); [by apply IH1|].
  destruct (Fields choice) as [|k args] eqn:EF. { destruct Htl as [[?|?] _]; done. }
  destruct (String.eqb k "c").
  { apply IH1; [done| |].
    - intros _. destruct Hgood as [?|[-> ?]]; [by left|right]. split; [done|]. apply elem_of_app. by left.
    - intros l0 c0 p0 Hin. apply elem_of_app in Hin as [Hin|Hin]; [|by apply elem_of_list_singleton in Hin].
      destruct (Hsh' _ _ _ Hin) as [?|[-> ?]]; [by left|]. right. split; [done|]. apply elem_of_app. by left. }
  destruct (set_class k (k :: args) c) as [c'|] eqn:ES.
  { apply IH1; [|done|done]. rewrite <-EF in ES. by eapply set_class_ok. }
  destruct (Atoi choice) as [z| |] eqn:EA; [|by apply IH1|by apply IH1].
  apply IH1; [|done|done]. destruct Hok as [_ Hok]. split; [|done]. destruct Htl as (_ & Htl & _). by apply Htl.
Qed.

Lemma getPassword_ok ents inp : tame inp → gp_ok ents inp (getPassword ents inp).
Proof.
  intros Ht. eapply gp_loop_ok; [done|done| |done|].
  - split; [split; [right; vm_compute; discriminate|lia]|]. cbn. lia.
  - intros ? ? ? Hin. by apply elem_of_nil in Hin.
Qed.

(** ** Settings take effect *)
Definition plain (s : string) : Prop := ∀ x, x ∈ str_bytes s → (32 < byteZ x < 127)%Z.
Lemma plain_cons x s : plain (String x s) ↔ (32 < byteZ x < 127)%Z ∧ plain s.
Proof.
  unfold plain, str_bytes. cbn [String.list_ascii_of_string]. split.
  - intros H. split; [apply H; left|]. intros y Hy. apply H. by right.
  - intros [H1 H2] y Hy. apply elem_of_cons in Hy as [->|Hy]; [done|by apply H2].
Qed.
Lemma IsSpace_plain z : (32 < z < 127)%Z → IsSpace z = false.
Proof.
  intros H. unfold IsSpace, inr.
  repeat match goal with |- context [(?a <=? ?b)%Z] => destruct (Z.leb_spec a b); [|lia || idtac] | |- context [(?a =? ?b)%Z] => rewrite (proj2 (Z.eqb_neq a b)) by lia end;
  try lia; cbn; try done.
  all: repeat match goal with |- context [(?a <=? ?b)%Z] => destruct (Z.leb_spec a b) end; try lia; done.
Qed.
Lemma decode_ascii x s : (byteZ x < 128)%Z → decode_rune (String x s) = Some (byteZ x, 1).
Proof. intros H. unfold decode_rune. cbv zeta. by rewrite (proj2 (Z.ltb_lt _ _)). Qed.
Lemma fields_b cur b b' s : fields_from cur 0 b s = fields_from cur 0 b' s.
Proof. by destruct s. Qed.
Lemma fields_plain s : ∀ cur b t, plain s → fields_from cur 0 b (s +:+ t) = fields_from (cur +:+ s) 0 false t.
Proof.
  induction s as [|x s IH]; intros cur b t Hp.
  - rewrite String_app_nil_r || idtac. cbn [String.append]. rewrite (fields_b _ b false). f_equal. induction cur; [done|]. cbn. by f_equal.
  - apply plain_cons in Hp as [Hx Hp]. cbn [String.append fields_from]. rewrite decode_ascii by lia. rewrite IsSpace_plain by lia.
    change (1 - 1) with 0. rewrite IH by done. f_equal. induction cur; [done|]. cbn. by f_equal.
Qed.

(** Numbers as typed. *)
Definition numeral (s : string) : Prop := s ≠ "" ∧ ∀ x, x ∈ str_bytes s → (32 < byteZ x ≤ 57)%Z.
Lemma pretty_N_char_num d : (d < 10)%N → (32 < byteZ (pretty_N_char d) ≤ 57)%Z.
Proof.
  intros Hd. assert (d = 0 ∨ d = 1 ∨ d = 2 ∨ d = 3 ∨ d = 4 ∨ d = 5 ∨ d = 6 ∨ d = 7 ∨ d = 8 ∨ d = 9)%N as H by lia.
  repeat destruct H as [->|H]; [..|subst d]; vm_compute; split; congruence.
Qed.
Lemma pretty_go_num (x : N) s : (∀ y, y ∈ str_bytes s → (32 < byteZ y ≤ 57)%Z) → ∀ y, y ∈ str_bytes (pretty_N_go x s) → (32 < byteZ y ≤ 57)%Z.
Proof.
  revert s. induction (N.lt_wf_0 x) as [x _ IH]. intros s Hs. destruct (decide (x = 0)%N) as [->|Hne]; [by rewrite pretty_N_go_0|].
  rewrite pretty_N_go_step by lia. apply IH; [apply N.div_lt; lia|]. intros y Hy. unfold str_bytes in Hy. cbn [String.list_ascii_of_string] in Hy.
  apply elem_of_cons in Hy as [->|Hy]; [|by apply Hs]. apply pretty_N_char_num. apply N.mod_lt. lia.
Qed.
Lemma numeral_FormatInt z : numeral (FormatInt z).
Proof.
  unfold numeral. destruct z as [|p|p].
  - split; [done|]. intros x Hx. apply elem_of_list_singleton in Hx as ->. vm_compute. split; congruence.
  - assert (FormatInt (Zpos p) = pretty_N_go (Npos p) "") as -> by done. split.
    + destruct (pretty_go_head (Npos p) "") as (c & r & E & _); [lia|]. by rewrite E.
    + apply pretty_go_num. intros y Hy. by apply elem_of_nil in Hy.
  - assert (FormatInt (Zneg p) = String (Zbyte 45) (pretty_N_go (Npos p) "")) as -> by done. split; [done|].
    intros x Hx. unfold str_bytes in Hx. cbn [String.list_ascii_of_string] in Hx. apply elem_of_cons in Hx as [->|Hx]; [vm_compute; split; congruence|].
    revert Hx. apply pretty_go_num. intros y Hy. by apply elem_of_nil in Hy.
Qed.
Lemma numeral_plain s : numeral s → plain s.
Proof. intros [_ H] x Hx. specialize (H x Hx). lia. Qed.
Lemma fields_flush s : s ≠ "" → fields_from s 0 false "" = [s].
Proof. by destruct s. Qed.
Lemma app_nil_r_s s : s +:+ "" = s.
Proof. induction s as [|x s IH]; [done|]. change (String x (s +:+ "") = String x s). by rewrite IH. Qed.
Lemma Fields_numeral s : numeral s → Fields s = [s].
Proof.
  intros Hs. unfold Fields. rewrite <-(app_nil_r_s s) at 1. rewrite fields_plain by by apply numeral_plain.
  apply fields_flush. by destruct Hs.
Qed.
Lemma Fields_letter x s : (32 < byteZ x < 127)%Z → numeral s → Fields (String x (String (Zbyte 32) s)) = [String x ""; s].
Proof.
  intros Hx Hs. unfold Fields. cbn [fields_from]. rewrite decode_ascii by lia. rewrite IsSpace_plain by done. change (1 - 1) with 0.
  cbn [fields_from]. rewrite decode_ascii by (vm_compute; reflexivity). change (IsSpace (byteZ (Zbyte 32))) with true. cbv iota.
  change (1 - 1) with 0. change ("" +:+ String x "") with (String x ""). cbn [flush]. f_equal.
  rewrite <-(app_nil_r_s s) at 1. rewrite fields_plain by by apply numeral_plain. apply fields_flush. by destruct Hs.
Qed.

Lemma gp_step_go ents calls len c pw : ok_settings len c → (∀ n, is_Some (ents n)) →
  ∃ calls' pw' tr', gp_top ents calls len c pw true = Ok (pw', calls', tr').
Proof.
  intros Hok Hent. pose proof (gp_top_cases ents calls len c pw true [] Hok ltac:(done)) as H.
  destruct (gp_top ents calls len c pw true) as [[[pw' calls'] ev]|e|]; [eauto| |done].
  destruct H as [_ H]. destruct (Hent calls) as [? Hc]. congruence.
Qed.
Lemma gp_step_set ents calls len c c' pw tr x n rest : ok_settings len c → (∀ n, is_Some (ents n)) →
  (32 < byteZ x < 127)%Z → String x "" ≠ "c" → set_class (String x "") [String x ""; FormatInt n] c = Some c' →
  ∃ calls' pw' tr', gp_loop ents calls len c pw true tr (ILine (String x (String (Zbyte 32) (FormatInt n))) :: rest) =
    gp_loop ents calls' len c' pw' true tr' rest.
Proof.
  intros Hok Hent Hx Hc Hs. destruct (gp_step_go ents calls len c pw Hok Hent) as (calls' & pw' & ev & E).
  exists calls', pw', (tr ++ [ev]). cbn [gp_loop]. rewrite E. cbv zeta.
  change (String.eqb (String x (String (Zbyte 32) (FormatInt n))) "") with false. cbv iota.
  assert (∀ y, String.eqb (String x (String (Zbyte 32) (FormatInt n))) (String y "") = false) as Hn by (intros y; by apply String.eqb_neq).
  rewrite !Hn. rewrite Fields_letter by (done || apply numeral_FormatInt).
  rewrite (proj2 (String.eqb_neq _ _) Hc), Hs. done.
Qed.
Lemma numeral_neq s x t : numeral s → (57 < byteZ x)%Z → s ≠ String x t.
Proof. intros [_ H] Hx ->. specialize (H x ltac:(left)). lia. Qed.
Lemma gp_step_len ents calls len c pw tr n rest : ok_settings len c → (∀ n, is_Some (ents n)) → in_int64 n →
  ∃ calls' pw' tr', gp_loop ents calls len c pw true tr (ILine (FormatInt n) :: rest) = gp_loop ents calls' n c pw' true tr' rest.
Proof.
  intros Hok Hent Hn. destruct (gp_step_go ents calls len c pw Hok Hent) as (calls' & pw' & ev & E).
  exists calls', pw', (tr ++ [ev]). cbn [gp_loop]. rewrite E. cbv zeta. pose proof (numeral_FormatInt n) as Hnum.
  assert (∀ x t, (57 < byteZ x)%Z → String.eqb (FormatInt n) (String x t) = false) as Hne.
  { intros x t Hx. apply String.eqb_neq. by apply numeral_neq. }
  rewrite (proj2 (String.eqb_neq _ "")) by by destruct Hnum.
  rewrite !Hne by (vm_compute; reflexivity). rewrite Fields_numeral by done. unfold set_class.
  rewrite !Hne by (vm_compute; reflexivity). unfold Atoi. by rewrite ParseInt_FormatInt.
Qed.

Definition typed_settings (len : Z) (c : classes) : list input :=
  [ILine (FormatInt len); ILine ("u " +:+ FormatInt (c_upper c)); ILine ("l " +:+ FormatInt (c_lower c));
   ILine ("n " +:+ FormatInt (c_numbers c)); ILine ("b " +:+ FormatInt (c_basic c)); ILine ("e " +:+ FormatInt (c_extra c)); ILine "y"].
Lemma getPassword_configured ents len c rest : ok_settings len c → (∀ n, is_Some (ents n)) → (0 < len)%Z →
  (-2^60 < c_upper c)%Z → (-2^60 < c_lower c)%Z → (-2^60 < c_numbers c)%Z → (-2^60 < c_basic c)%Z → (-2^60 < c_extra c)%Z →
  (minima c ≤ len)%Z → ¬ all_off c →
  ∃ pw tr, getPassword ents (typed_settings len c ++ rest) = UOk (pw, tr) rest ∧ meets len c (str_bytes pw) ∧ last tr = Some (Shown len c pw).
Proof.
  intros Hok Hent H0 L1 L2 L3 L4 L5 Hmin Hon. pose proof Hok as (([Hm|Hm] & Hl) & U1 & U2 & U3 & U4 & U5); [lia|].
  assert (∀ a b d e f, (a < 2^60)%Z → (b < 2^60)%Z → (d < 2^60)%Z → (e < 2^60)%Z → (f < 2^60)%Z →
    ok_settings len {| c_upper := a; c_lower := b; c_numbers := d; c_basic := e; c_extra := f |}) as Hoks.
  { intros. split; [split; [by right|done]|]. cbn. done. }
  unfold getPassword, typed_settings. cbn [app].
  destruct (gp_step_len ents 0 32 any_class "" [] len (ILine ("u " +:+ FormatInt (c_upper c)) :: ILine ("l " +:+ FormatInt (c_lower c)) ::
   ILine ("n " +:+ FormatInt (c_numbers c)) :: ILine ("b " +:+ FormatInt (c_basic c)) :: ILine ("e " +:+ FormatInt (c_extra c)) :: ILine "y" :: rest)) as (k0 & p0 & t0 & E).
  { split; [split; [right; vm_compute; discriminate|lia]|]. cbn. lia. } { done. } { unfold in_int64. lia. }
  rewrite E. clear E.
  Ltac one_step ents Hoks Hent := 
    match goal with |- context [gp_loop ents ?k ?len ?c ?pw true ?tr (ILine (String ?x " " +:+ FormatInt ?n) :: ?rest)] =>
      let E := fresh "E" in let k' := fresh "k" in let p' := fresh "p" in let t' := fresh "t" in
      destruct (gp_step_set ents k len c _ pw tr x n rest ltac:(apply Hoks; cbn; lia) Hent ltac:(vm_compute; split; reflexivity) ltac:(discriminate) eq_refl) as (k' & p' & t' & E);
      change (String x " " +:+ FormatInt n) with (String x (String (Zbyte 32) (FormatInt n))); rewrite E; clear E; cbn [c_upper c_lower c_numbers c_basic c_extra setSetting any_class];
      unfold Atoi; rewrite ParseInt_FormatInt by (unfold in_int64; lia)
    end.
  assert (ok_settings len any_class) as Hok0 by (apply Hoks; lia).
  one_step ents Hoks Hent. one_step ents Hoks Hent. one_step ents Hoks Hent. one_step ents Hoks Hent. one_step ents Hoks Hent.
  assert ({| c_upper := c_upper c; c_lower := c_lower c; c_numbers := c_numbers c; c_basic := c_basic c; c_extra := c_extra c |} = c) as -> by by destruct c.
  cbn [gp_loop]. pose proof (ok_no_overflow _ _ Hok) as Ho.
  unfold gp_top. match goal with |- context [genPassword (ents ?k)] => destruct (Hent k) as [ent Eent] end. rewrite Eent.
  pose proof (genPassword_cases (Some ent) len c Ho) as H. cbn zeta in H. rewrite !decide_False in H by (done || lia).
  destruct H as (pw & -> & HM). cbv zeta. change (String.eqb "y" "") with false. change (String.eqb "y" "y") with true. cbv iota.
  eexists _, _. split; [done|]. split; [|apply last_snoc].
  unfold bytes_string, str_bytes. by rewrite String.list_ascii_of_string_of_list_ascii.
Qed.
