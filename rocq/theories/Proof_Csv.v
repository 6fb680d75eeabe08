(** Proofs about the reader of encoding/csv. *)
From Verif Require Import Spec_Csv Proof_GoStr Proof_Export.
From Coq Require Import Lia.
From stdpp Require Import options.
#[local] Open Scope nat_scope.

(** ** Characters of a string *)

Lemma clear_of_nil c : clear_of c "". Proof. intros [|i]; done. Qed.
Lemma clear_of_cons c x s : clear_of c (String x s) ↔ x ≠ c ∧ clear_of c s.
Proof.
  split.
  - intros H. split; [intros ->; by apply (H 0)|]. intros i. apply (H (S i)).
  - intros [H1 H2] [|i]; cbn [String.get]; [congruence|apply H2].
Qed.
Lemma clear_of_app c s t : clear_of c (s +:+ t) ↔ clear_of c s ∧ clear_of c t.
Proof.
  induction s as [|x s IH]; [split; [intros H; split; [apply clear_of_nil|done]|by intros [_ ?]]|].
  change (String x s +:+ t) with (String x (s +:+ t)). rewrite !clear_of_cons, IH. naive_solver.
Qed.
Lemma around_some c s a b : around c s = Some (a, b) ↔ s = a +:+ String c b ∧ clear_of c a.
Proof.
  revert a b. induction s as [|x s IH]; intros a b; cbn [around].
  - split; [done|]. intros [H _]. by destruct a.
  - destruct (Ascii.eqb_spec x c) as [->|Hx].
    + split; [intros [= <- <-]; split; [done|apply clear_of_nil]|]. intros [H Ha]. destruct a as [|y a]; [by injection H as ->|].
      injection H as -> ->. by apply clear_of_cons in Ha as [? _].
    + destruct (around c s) as [[a' b']|].
      * split.
        -- intros [= <- <-]. destruct (proj1 (IH a' b') eq_refl) as [E Ha]. split; [by rewrite E|by apply clear_of_cons].
        -- intros [H Ha]. destruct a as [|y a]; [injection H; congruence|]. injection H as -> H. apply clear_of_cons in Ha as [_ Ha].
           assert (Some (a', b') = Some (a, b)) as [= -> ->]; [|done]. by apply IH.
      * split; [done|]. intros [H Ha]. destruct a as [|y a]; [injection H; congruence|]. injection H as -> H. apply clear_of_cons in Ha as [_ Ha].
        assert (None = Some (a, b)); [by apply IH|done].
Qed.
Lemma around_none c s : around c s = None ↔ clear_of c s.
Proof.
  induction s as [|x s IH]; cbn [around]; [split; [intros _; apply clear_of_nil|done]|]. rewrite clear_of_cons.
  destruct (Ascii.eqb_spec x c) as [->|Hx]; [naive_solver|]. rewrite <-IH. destruct (around c s) as [[? ?]|]; naive_solver.
Qed.
Lemma after_some c s r : after_first c s = Some r ↔ s = String c r.
Proof. destruct s as [|x s]; cbn [after_first]; [done|]. destruct (Ascii.eqb_spec x c) as [->|Hx]; naive_solver. Qed.
Lemma after_none c s : after_first c s = None ↔ ∀ r, s ≠ String c r.
Proof. destruct s as [|x s]; cbn [after_first]; [naive_solver|]. destruct (Ascii.eqb_spec x c) as [->|Hx]; naive_solver. Qed.
Lemma chop_hit c s : chop c (s +:+ String c "") = s.
Proof.
  induction s as [|x s IH]; [cbn; by rewrite Ascii.eqb_refl|]. change (String x s +:+ String c "") with (String x (s +:+ String c "")). cbn [chop].
  rewrite IH. by destruct s.
Qed.
Lemma chop_miss c s : clear_of c s → chop c s = s.
Proof.
  induction s as [|x s IH]; [done|]. intros [Hx Hs]%clear_of_cons. cbn [chop]. rewrite IH by done. destruct s; [|done].
  by rewrite (proj2 (Ascii.eqb_neq x c) Hx).
Qed.
Lemma chop_length c s : String.length (chop c s) ≤ String.length s.
Proof.
  induction s as [|x s IH]; [done|]. cbn [chop]. destruct s as [|y s]; [destruct (Ascii.eqb x c); cbn; lia|]. cbn [String.length] in *. lia.
Qed.
Lemma clear_of_chop c d s : clear_of c s → clear_of c (chop d s).
Proof.
  induction s as [|x s IH]; [done|]. intros [Hx Hs]%clear_of_cons. cbn [chop]. destruct s as [|y s]; [destruct (Ascii.eqb x d); [apply clear_of_nil|by apply clear_of_cons]|].
  apply clear_of_cons. split; [done|by apply IH].
Qed.

(** ** Lines *)

Lemma unix_cons c r : c ≠ cr → unix (String c r) = String c (unix r).
Proof. intros H. cbn [unix]. by rewrite (proj2 (Ascii.eqb_neq c cr) H). Qed.
Lemma unix_line l r : clear_of lf l → unix (l +:+ String lf r) = chop cr l +:+ String lf (unix r).
Proof.
  induction l as [|x l IH]; intros Hl; [done|]. apply clear_of_cons in Hl as [Hx Hl].
  change (String x l +:+ String lf r) with (String x (l +:+ String lf r)). cbn [unix chop]. destruct (Ascii.eqb_spec x cr) as [->|Hc].
  - destruct l as [|y l]; [done|]. change (String y l +:+ String lf r) with (String y (l +:+ String lf r)) in *. apply clear_of_cons in Hl as [Hy Hl0].
    rewrite (proj2 (Ascii.eqb_neq y lf) Hy). rewrite IH by by apply clear_of_cons. done.
  - rewrite IH by done. destruct l; [done|]. done.
Qed.
Lemma unix_end s : clear_of lf s → unix s = chop cr s.
Proof.
  induction s as [|x s IH]; intros Hl; [done|]. apply clear_of_cons in Hl as [Hx Hl]. cbn [unix chop]. destruct (Ascii.eqb_spec x cr) as [->|Hc].
  - destruct s as [|y s]; [done|]. pose proof Hl as [Hy Hl0]%clear_of_cons. rewrite (proj2 (Ascii.eqb_neq y lf) Hy). by rewrite IH.
  - rewrite IH by done. by destruct s.
Qed.

(** [line] is the rest of a line and [rest] what is after it. *)
Definition is_line (line rest : string) : Prop := ∃ l, clear_of lf l ∧ (line = l +:+ String lf "" ∨ line = l ∧ rest = "").
Lemma readLine_none s : readLine s = None ↔ s = "".
Proof. destruct s as [|x s]; [done|]. split; [|done]. cbn [readLine]. by destruct (around lf (String x s)) as [[? ?]|]. Qed.
Lemma readLine_some s l r : readLine s = Some (l, r) → is_line l r ∧ unix s = l +:+ unix r ∧ String.length l + String.length r ≤ String.length s ∧ String.length r < String.length s.
Proof.
  intros E0. assert (s ≠ "") as Hs by (intros ->; done).
  assert (readLine s = match around lf s with Some (l, r) => Some (chop cr l +:+ String lf "", r) | None => Some (chop cr s, "") end) as Er by (by destruct s).
  rewrite Er in E0. clear Er. destruct (around lf s) as [[a b]|] eqn:E.
  - injection E0 as <- <-. apply around_some in E as [-> Ha]. split; [exists (chop cr a); split; [by apply clear_of_chop|by left]|].
    rewrite unix_line by done. rewrite sapp_assoc. split; [done|]. pose proof (chop_length cr a). rewrite !sapp_length. cbn [String.length]. lia.
  - injection E0 as <- <-. apply around_none in E. split; [exists (chop cr s); split; [by apply clear_of_chop|by right]|].
    rewrite unix_end by done. change (unix "") with "". rewrite sapp_nil. split; [done|]. pose proof (chop_length cr s). destruct s; [done|]. cbn [String.length] in *. lia.
Qed.
Lemma line_tail c line rest : c ≠ lf → is_line (String c line) rest → is_line line rest.
Proof.
  intros Hc (l & Hl & [E|[<- E]]).
  - destruct l as [|x l]; [injection E; congruence|]. injection E as -> E. apply clear_of_cons in Hl as [_ Hl]. exists l. auto.
  - apply clear_of_cons in Hl as [_ Hl]. exists line. auto.
Qed.
Lemma line_app a line rest : clear_of lf a → is_line (a +:+ line) rest → is_line line rest.
Proof. induction a as [|x a IH]; [done|]. intros [Hx Ha]%clear_of_cons H. apply IH; [done|]. by eapply line_tail. Qed.
Lemma line_before a c b rest : is_line (a +:+ String c b) rest → c ≠ lf → clear_of lf a.
Proof.
  revert b. induction a as [|x a IH]; intros b H Hc; [apply clear_of_nil|]. change (String x a +:+ String c b) with (String x (a +:+ String c b)) in H.
  apply clear_of_cons. assert (x ≠ lf) as Hx.
  { intros ->. destruct H as (l & Hl & [E|[<- _]]); [|by apply clear_of_cons in Hl as [? _]].
    destruct l as [|y l]; [injection E as E; by destruct a|]. injection E as <- E. by apply clear_of_cons in Hl as [? _]. }
  split; [done|]. eapply IH; [|done]. by eapply line_tail.
Qed.
Lemma line_lf line rest : is_line (String lf line) rest → line = "".
Proof.
  intros (l & Hl & [E|[<- _]]); [|by apply clear_of_cons in Hl as [? _]]. destruct l as [|y l]; [by injection E|]. injection E as <- E. by apply clear_of_cons in Hl as [? _].
Qed.
Lemma line_chop line rest : is_line line rest → (line = chop lf line +:+ String lf "" ∨ line = chop lf line ∧ rest = "") ∧ clear_of lf (chop lf line).
Proof. intros (l & Hl & [-> |[-> ->]]); [rewrite chop_hit; split; [by left|done]|]. rewrite chop_miss by done. split; [by right|done]. Qed.

(** ** Reading character by character *)

(** The record at the start of [s] and what follows it *)
Fixpoint chars (p : place) (field : string) (row : list string) (s : string) : option (list string * string) :=
  match s with
  | EmptyString => match p with Inside => None | _ => Some (row ++ [field], "") end
  | String c r =>
      let other :=
        if Ascii.eqb c comma then chars Start "" (row ++ [field]) r
        else if Ascii.eqb c lf then Some (row ++ [field], r)
        else match p with After => None | _ => chars Plain (field +:+ String c "") row r end in
      match p with
      | Start => if Ascii.eqb c quote then chars Inside "" row r else other
      | Plain => if Ascii.eqb c quote then None else other
      | Inside => if Ascii.eqb c quote then chars After field row r else chars Inside (field +:+ String c "") row r
      | After => if Ascii.eqb c quote then chars Inside (field +:+ String c "") row r else other
      end
  end.
Definition bare (s : string) : Prop := clear_of comma s ∧ clear_of quote s ∧ clear_of lf s.
Lemma bare_cons c s : bare (String c s) ↔ (c ≠ comma ∧ c ≠ quote ∧ c ≠ lf) ∧ bare s.
Proof. unfold bare. rewrite !clear_of_cons. naive_solver. Qed.
Lemma chars_plain t : ∀ field row u, bare t → chars Plain field row (t +:+ u) = chars Plain (field +:+ t) row u.
Proof.
  induction t as [|c t IH]; intros field row u H; [by rewrite sapp_nil|]. apply bare_cons in H as [(H1 & H2 & H3) H].
  change (String c t +:+ u) with (String c (t +:+ u)). cbn [chars]. cbv zeta.
  rewrite (proj2 (Ascii.eqb_neq c comma) H1), (proj2 (Ascii.eqb_neq c quote) H2), (proj2 (Ascii.eqb_neq c lf) H3). rewrite IH by done. by rewrite sapp_assoc.
Qed.
Lemma chars_inside t : ∀ field row u, clear_of quote t → chars Inside field row (t +:+ u) = chars Inside (field +:+ t) row u.
Proof.
  induction t as [|c t IH]; intros field row u H; [by rewrite sapp_nil|]. apply clear_of_cons in H as [H1 H].
  change (String c t +:+ u) with (String c (t +:+ u)). cbn [chars]. rewrite (proj2 (Ascii.eqb_neq c quote) H1). rewrite IH by done. by rewrite sapp_assoc.
Qed.
(** A field without quotes: a quote in it is an error, otherwise it goes on to the next
    comma or line feed. *)
Lemma chars_start c row t : c ≠ comma → c ≠ quote → c ≠ lf → chars Start "" row (String c t) = chars Plain (String c "") row t.
Proof.
  intros H1 H2 H3. cbn [chars]. cbv zeta. by rewrite (proj2 (Ascii.eqb_neq c comma) H1), (proj2 (Ascii.eqb_neq c quote) H2), (proj2 (Ascii.eqb_neq c lf) H3).
Qed.
Lemma chars_bare t row u : bare t → (∀ r, u ≠ String quote r) → chars Start "" row (t +:+ u) = chars Plain t row u.
Proof.
  destruct t as [|c t]; intros Ht Hu.
  - change ("" +:+ u) with u. destruct u as [|x u]; [done|]. cbn [chars]. cbv zeta. destruct (Ascii.eqb_spec x quote) as [->|Hx]; [by destruct (Hu u)|]. done.
  - apply bare_cons in Ht as [(H1 & H2 & H3) Ht]. change (String c t +:+ u) with (String c (t +:+ u)). rewrite chars_start by done. by rewrite chars_plain.
Qed.
Lemma chars_stray t row u : bare t → t ≠ "" → chars Start "" row (t +:+ String quote u) = None.
Proof.
  destruct t as [|c t]; [done|]. intros Ht _. apply bare_cons in Ht as [(H1 & H2 & H3) Ht].
  change (String c t +:+ String quote u) with (String c (t +:+ String quote u)). rewrite chars_start by done. by rewrite chars_plain.
Qed.

(** ** The reader reads so *)

Definition as_read (o : outcome (list string * string)) : option (list string * string) :=
  match o with Ok (fs, rest) => Some (fs, unix rest) | _ => None end.
Lemma parse_chars fuel : ∀ q line rest fields, is_line line rest → String.length line + String.length rest < fuel →
  as_read (parseField fuel q line rest fields) = match q with None => chars Start "" fields (line +:+ unix rest) | Some buf => chars Inside buf fields (line +:+ unix rest) end.
Proof.
  induction fuel as [|fuel IH]; intros q line rest fields Hl Hf; [lia|]. cbn [parseField]. destruct q as [buf|].
  - destruct (around quote line) as [[before after]|] eqn:E.
    + apply around_some in E as [-> Hb]. cbv zeta. pose proof (line_before _ _ _ _ Hl ltac:(done)) as Hb2. rewrite (sapp_assoc before), chars_inside by done.
      apply line_app in Hl; [|done]. apply line_tail in Hl; [|done]. rewrite !sapp_length in Hf. cbn [String.length] in Hf.
      change (String quote after +:+ unix rest) with (String quote (after +:+ unix rest)). cbn [chars]. change (Ascii.eqb quote quote) with true. cbv iota.
      destruct after as [|c after].
      * cbn [after_first chop]. change (String.eqb "" "") with true. cbv iota. cbn [as_read]. destruct Hl as (l & _ & [E|[_ ->]]); [by destruct l|]. done.
      * change (String c after +:+ unix rest) with (String c (after +:+ unix rest)). cbn [after_first chars]. cbv zeta. cbn [String.length] in Hf. destruct (Ascii.eqb_spec c quote) as [->|Hq].
        { rewrite IH; [done|eapply line_tail; [|exact Hl]; done|lia]. }
        destruct (Ascii.eqb_spec c comma) as [->|Hc].
        { rewrite IH; [done|eapply line_tail; [|exact Hl]; done|lia]. }
        destruct (Ascii.eqb_spec c lf) as [->|Hn].
        { apply line_lf in Hl as ->. done. }
        destruct (line_chop _ _ Hl) as [Hch _]. destruct (String.eqb_spec (chop lf (String c after)) "") as [E|_]; [|done].
        rewrite E in Hch. destruct Hch as [Hch|[Hch _]]; [injection Hch; congruence|done].
    + apply around_none in E. destruct (String.eqb_spec line "") as [->|Hne].
      { destruct Hl as (l & _ & [E2|[_ ->]]); [by destruct l|]. done. }
      rewrite chars_inside by done. destruct (readLine rest) as [[l r]|] eqn:Er.
      * apply readLine_some in Er as (Hl2 & Hu & Hlen & _). rewrite IH; [by rewrite Hu|done|]. destruct line; [done|]. cbn [String.length] in Hf. lia.
      * apply readLine_none in Er as ->. rewrite IH; [done|exists ""; split; [apply clear_of_nil|by right]|]. destruct line; [done|]. cbn [String.length] in *. lia.
  - destruct (after_first quote line) as [l|] eqn:Eq.
    { apply after_some in Eq as ->. cbn [String.length] in Hf. rewrite IH; [done|eapply line_tail; [|exact Hl]; done|lia]. }
    assert (∀ field u, line = field +:+ u → clear_of comma field → clear_of lf field → around quote field = None ∧ bare field ∨ ((∃ p, around quote field = Some p) ∧ chars Start "" fields (line +:+ unix rest) = None)) as Hfield.
    { intros field u -> H1 H2. destruct (around quote field) as [[a b]|] eqn:Ea.
      - right. split; [by eexists|]. apply around_some in Ea as [-> Ha]. apply clear_of_app in H1 as [H1 _]. apply clear_of_app in H2 as [H2 _]. rewrite !sapp_assoc. apply chars_stray; [done|].
        intros ->. by apply after_none with (r := b +:+ u) in Eq.
      - left. split; [done|]. by apply around_none in Ea. }
    destruct (around comma line) as [[field after]|] eqn:Ec.
    + apply around_some in Ec as [-> Hc]. pose proof (line_before _ _ _ _ Hl ltac:(done)) as Hb2.
      destruct (Hfield field (String comma after) eq_refl Hc Hb2) as [[-> Hb]|[[p ->] ->]]; [|done].
      rewrite sapp_assoc. rewrite chars_bare by done. apply line_app in Hl; [|done]. apply line_tail in Hl; [|done]. rewrite !sapp_length in Hf. cbn [String.length] in Hf.
      rewrite IH; [done|done|lia].
    + apply around_none in Ec. destruct (line_chop _ _ Hl) as [Hch Hlf]. set (field := chop lf line) in *. cbv zeta.
      assert (∃ u, line = field +:+ u ∧ (u = String lf "" ∨ u = "" ∧ rest = "")) as (u & Hu & Hcases) by (destruct Hch as [E|[E ->]]; [by exists (String lf ""); split; [|left]|exists ""; rewrite sapp_nil; auto]).
      assert (clear_of comma field) as Hc by (rewrite Hu in Ec; by apply clear_of_app in Ec as [? _]).
      destruct (Hfield field u Hu Hc Hlf) as [[-> Hb]|[[p ->] ->]]; [|done]. rewrite Hu. rewrite sapp_assoc. destruct Hcases as [->|[-> ->]].
      * rewrite chars_bare by done. done.
      * rewrite chars_bare by done. done.
Qed.

(** ** Characters and the grammar *)

(** [s] is [t] and the end of its line, after which [r] follows. *)
Definition ends (t s r : string) : Prop := s = t +:+ String lf r ∨ s = t ∧ r = "".
Lemma join_one f : go_join (String comma "") [f] = f. Proof. done. Qed.
Lemma record_one f t : field_text f t → record_text [f] t.
Proof. intros H. split; [done|]. exists [t]. split; [constructor; [exact H|constructor]|done]. Qed.
Lemma record_more f t fs ts : field_text f t → record_text fs ts → record_text (f :: fs) (t +:+ String comma ts).
Proof.
  intros Hf (Hne & l & H & ->). split; [done|]. exists (t :: l). split; [by constructor|]. rewrite join_cons; [done|]. intros ->. by inversion H; subst.
Qed.
Lemma record_inv f fs t : record_text (f :: fs) t → ∃ ft, field_text f ft ∧ ((fs = [] ∧ t = ft) ∨ ∃ ts, record_text fs ts ∧ t = ft +:+ String comma ts).
Proof.
  intros (_ & l & H & ->). inversion H as [|? ft ? l' Hf Hl]; subst. exists ft. split; [done|]. destruct fs as [|g fs].
  - inversion Hl; subst. by left.
  - right. exists (go_join (String comma "") l'). inversion Hl; subst. split; [split; [done|]; by eexists|]. by rewrite join_cons.
Qed.

(** What may come after a field *)
Definition tail_of (fs : list string) (s r : string) : Prop := (fs = [] ∧ ends "" s r) ∨ ∃ t, record_text fs t ∧ ends (String comma t) s r.
Lemma tail_record f ft fs s r : field_text f ft → tail_of fs s r → ∃ t, record_text (f :: fs) t ∧ ends t (ft +:+ s) r.
Proof.
  intros Hf [[-> H]|(t & Ht & H)].
  - exists ft. split; [by apply record_one|]. destruct H as [-> |[-> ->]]; [by left|right]. by rewrite sapp_nil.
  - exists (ft +:+ String comma t). split; [by apply record_more|]. destruct H as [-> |[-> ->]]; [left|by right]. by rewrite sapp_assoc.
Qed.
Lemma chars_sound s : ∀ p field row fs r, chars p field row s = Some (fs, r) →
  match p with
  | Start => field = "" → ∃ fs' t, fs = row ++ fs' ∧ record_text fs' t ∧ ends t s r
  | Plain => ∃ f fs' u, fs = row ++ (field +:+ f) :: fs' ∧ bare f ∧ s = f +:+ u ∧ tail_of fs' u r
  | Inside => ∃ f fs' u, fs = row ++ (field +:+ f) :: fs' ∧ s = quoted f +:+ String quote u ∧ tail_of fs' u r
  | After => ∃ f fs' u, fs = row ++ (field +:+ f) :: fs' ∧ String quote s = quoted f +:+ String quote u ∧ tail_of fs' u r
  end.
Proof.
  assert (bare "") as Hb0 by (split; [|split]; apply clear_of_nil).
  induction s as [|c s IH]; intros p field row fs r H.
  - destruct p; cbn [chars] in H; [| |done|]; injection H as <- <-.
    + intros ->. exists [""], "". split; [done|]. split; [apply record_one; left; split; [done|]; apply Hb0|by right].
    + exists "", [], "". rewrite sapp_nil. split; [done|]. split; [done|]. split; [done|]. left. split; [done|by right].
    + exists "", [], "". rewrite sapp_nil. split; [done|]. split; [done|]. left. split; [done|by right].
  - assert (∀ q, (if Ascii.eqb c comma then chars Start "" (row ++ [field]) s else if Ascii.eqb c lf then Some (row ++ [field], s) else q) = Some (fs, r) → c ≠ quote →
      (∃ fs', fs = row ++ field :: fs' ∧ tail_of fs' (String c s) r) ∨ (c ≠ comma ∧ c ≠ lf ∧ q = Some (fs, r))) as Ho.
    { intros q Hq Hc. destruct (Ascii.eqb_spec c comma) as [->|H1].
      - left. destruct (IH Start "" _ _ _ Hq eq_refl) as (fs' & t & -> & Ht & He). exists fs'. split; [by rewrite <-app_assoc|]. right. exists t. split; [done|].
        destruct He as [-> |[-> ->]]; [by left|by right].
      - destruct (Ascii.eqb_spec c lf) as [->|H2]; [|by right]. left. injection Hq as <- <-. exists []. split; [done|]. left. split; [done|by left]. }
    assert (c ≠ comma → c ≠ quote → c ≠ lf → ∀ fd, chars Plain (fd +:+ String c "") row s = Some (fs, r) →
      ∃ f fs' u, fs = row ++ (fd +:+ f) :: fs' ∧ bare f ∧ String c s = f +:+ u ∧ tail_of fs' u r) as Hp.
    { intros H1 H2 H3 fd Hq. destruct (IH Plain _ _ _ _ Hq) as (f & fs' & u & -> & Hb & -> & Ht). exists (String c f), fs', u.
      split; [by rewrite sapp_assoc|]. split; [by apply bare_cons|]. done. }
    destruct p; cbn [chars] in H; cbv zeta in H; destruct (Ascii.eqb_spec c quote) as [->|Hq]; try done.
    + intros ->. destruct (IH Inside _ _ _ _ H) as (f & fs' & u & -> & -> & Ht). destruct (tail_record f (String quote (quoted f +:+ String quote "")) fs' u r) as (t & Hrt & He); [by right|done|].
      exists (f :: fs'), t. split; [done|]. split; [done|]. change (String quote (quoted f +:+ String quote "") +:+ u) with (String quote ((quoted f +:+ String quote "") +:+ u)) in He. by rewrite sapp_assoc in He.
    + intros ->. apply Ho in H as [(fs' & -> & Ht)|(H1 & H2 & H)]; [|destruct (Hp H1 Hq H2 "" H) as (f & fs' & u & -> & Hb & -> & Ht)|done].
      * destruct (tail_record "" "" fs' (String c s) r) as (t & Hrt & He); [left; split; [done|]; apply Hb0|done|]. by exists ("" :: fs'), t.
      * destruct (tail_record f f fs' u r) as (t & Hrt & He); [left; split; [done|]; apply Hb|done|]. by exists (f :: fs'), t.
    + apply Ho in H as [(fs' & -> & Ht)|(H1 & H2 & H)]; [|by apply Hp|done]. exists "", fs', (String c s). by rewrite sapp_nil.
    + destruct (IH After _ _ _ _ H) as (f & fs' & u & -> & E & Ht). by exists f, fs', u.
    + destruct (IH Inside _ _ _ _ H) as (f & fs' & u & -> & -> & Ht). exists (String c f), fs', u. split; [by rewrite sapp_assoc|]. split; [|done].
      cbn [quoted]. by rewrite (proj2 (Ascii.eqb_neq c quote) Hq).
    + destruct (IH Inside _ _ _ _ H) as (f & fs' & u & -> & -> & Ht). exists (String quote f), fs', u. split; [by rewrite sapp_assoc|]. split; [|done]. done.
    + apply Ho in H as [(fs' & -> & Ht)|(H1 & H2 & H)]; [|done|done]. exists "", fs', (String c s). by rewrite sapp_nil.
Qed.
Lemma chars_quoted f : ∀ field row u, chars Inside field row (quoted f +:+ String quote u) = chars After (field +:+ f) row u.
Proof.
  induction f as [|c f IH]; intros field row u; [by rewrite sapp_nil|]. cbn [quoted]. destruct (Ascii.eqb_spec c quote) as [->|Hc].
  - change (String quote (String quote (quoted f)) +:+ String quote u) with (String quote (String quote (quoted f +:+ String quote u))).
    cbn [chars]. change (Ascii.eqb quote quote) with true. cbv iota. rewrite IH. by rewrite sapp_assoc.
  - change (String c (quoted f) +:+ String quote u) with (String c (quoted f +:+ String quote u)). cbn [chars]. rewrite (proj2 (Ascii.eqb_neq c quote) Hc). rewrite IH. by rewrite sapp_assoc.
Qed.
Lemma chars_field f ft row u : field_text f ft → (u = "" ∨ (∃ v, u = String comma v) ∨ ∃ v, u = String lf v) →
  chars Start "" row (ft +:+ u) = match u with String c v => if Ascii.eqb c comma then chars Start "" (row ++ [f]) v else Some (row ++ [f], v) | EmptyString => Some (row ++ [f], "") end.
Proof.
  intros [(-> & Hb)| ->] Hu.
  - rewrite chars_bare; [|done|by destruct Hu as [-> |[[v ->]|[v ->]]]]. by destruct Hu as [-> |[[v ->]|[v ->]]].
  - change (String quote (quoted f +:+ String quote "") +:+ u) with (String quote ((quoted f +:+ String quote "") +:+ u)). rewrite sapp_assoc.
    change (String quote "" +:+ u) with (String quote u). cbn [chars]. change (Ascii.eqb quote quote) with true. cbv iota. rewrite chars_quoted.
    by destruct Hu as [-> |[[v ->]|[v ->]]].
Qed.
Lemma chars_complete fs : ∀ row t s r, record_text fs t → ends t s r → chars Start "" row s = Some (row ++ fs, r).
Proof.
  induction fs as [|f fs IH]; intros row t s r Ht He; [by destruct Ht|]. apply record_inv in Ht as (ft & Hf & [[-> ->]|(ts & Hts & ->)]).
  - assert (∃ u, s = ft +:+ u ∧ (u = "" ∧ r = "" ∨ u = String lf r)) as (u & -> & Hu) by (destruct He as [-> |[-> ->]]; [by eexists; split; [|right]|exists ""; rewrite sapp_nil; auto]).
    rewrite (chars_field f) by naive_solver. by destruct Hu as [[-> ->]| ->].
  - assert (∃ u, s = ft +:+ String comma u ∧ ends ts u r) as (u & -> & Hu).
    { destruct He as [-> |[-> ->]]; [exists (ts +:+ String lf r); split; [by rewrite sapp_assoc|by left]|exists ts; split; [done|by right]]. }
    rewrite (chars_field f) by naive_solver. change (Ascii.eqb comma comma) with true. cbv iota. rewrite (IH _ ts u r) by done. by rewrite <-app_assoc.
Qed.

(** ** All records *)

Lemma parse_rest fuel : ∀ q line rest fields,
  match parseField fuel q line rest fields with Ok (_, r) => String.length r ≤ String.length rest | Fail _ => True | Panic => False end.
Proof.
  induction fuel as [|fuel IH]; intros q line rest fields; [done|]. cbn [parseField]. destruct q as [buf|].
  - destruct (around quote line) as [[before after]|].
    + cbv zeta. destruct (after_first quote after); [apply IH|]. destruct (after_first comma after); [apply IH|]. destruct (String.eqb _ _); [lia|done].
    + destruct (String.eqb line ""); [done|]. destruct (readLine rest) as [[l r]|] eqn:E; [|apply IH]. apply readLine_some in E as (_ & _ & _ & E).
      pose proof (IH (Some (buf +:+ line)) l r fields) as H. destruct (parseField _ _ _ _ _) as [[? ?]|?|]; [lia|done|done].
  - destruct (after_first quote line); [apply IH|]. destruct (around comma line) as [[field after]|].
    + destruct (around quote field); [done|apply IH].
    + cbv zeta. destruct (around quote _); [done|lia].
Qed.
Lemma chop_empty l r : is_line l r → chop lf l = "" → l = String lf "" ∨ l = "" ∧ r = "".
Proof. intros H E. destruct (line_chop _ _ H) as [Hc _]. rewrite E in Hc. naive_solver. Qed.
Lemma nextLine_step fuel s : nextLine (S fuel) s = match readLine s with Some (l, r) => if String.eqb (chop lf l) "" then nextLine fuel r else Some (l, r) | None => None end.
Proof. done. Qed.
Lemma nextLine_fuel f : ∀ g s, String.length s < f → String.length s < g → nextLine f s = nextLine g s.
Proof.
  induction f as [|f IH]; intros g s H1 H2; [lia|]. destruct g as [|g]; [lia|]. rewrite !nextLine_step. destruct (readLine s) as [[l r]|] eqn:E; [|done].
  apply readLine_some in E as (_ & _ & _ & E). rewrite (IH g) by lia. done.
Qed.
Lemma nextLine_some fuel : ∀ s l r, nextLine fuel s = Some (l, r) → is_line l r ∧ chop lf l ≠ "" ∧ String.length r < String.length s ∧
  ∀ rows, csv_text (l +:+ unix r) rows → csv_text (unix s) rows.
Proof.
  induction fuel as [|fuel IH]; intros s l r H; [done|]. rewrite nextLine_step in H. destruct (readLine s) as [[l0 r0]|] eqn:E; [|done].
  apply readLine_some in E as (Hl & Hu & _ & Hlen). destruct (String.eqb_spec (chop lf l0) "") as [E2|E2].
  - apply IH in H as (H1 & H2 & H3 & H4). split; [done|]. split; [done|]. split; [lia|]. intros rows Hr. rewrite Hu. apply H4 in Hr.
    destruct (chop_empty _ _ Hl E2) as [-> |[-> ->]]; [by apply csv_blank|done].
  - injection H as <- <-. split; [done|]. split; [done|]. split; [done|]. by rewrite Hu.
Qed.
Lemma nextLine_none fuel : ∀ s, String.length s < fuel → nextLine fuel s = None → csv_text (unix s) [].
Proof.
  induction fuel as [|fuel IH]; intros s Hf H; [lia|]. rewrite nextLine_step in H. destruct (readLine s) as [[l0 r0]|] eqn:E.
  - apply readLine_some in E as (Hl & Hu & _ & Hlen). destruct (String.eqb_spec (chop lf l0) "") as [E2|E2]; [|done]. apply IH in H; [|lia]. rewrite Hu.
    destruct (chop_empty _ _ Hl E2) as [-> |[-> ->]]; [by apply csv_blank|done].
  - apply readLine_none in E as ->. constructor.
Qed.
Lemma record_start fs t : record_text fs t → ∀ r, t ≠ String lf r.
Proof.
  destruct fs as [|f fs]; [by intros [? _]|]. intros (ft & Hf & Ht)%record_inv r ->.
  assert (∀ u, String lf r ≠ ft +:+ String comma u) as H1.
  { intros u E. destruct Hf as [(-> & _ & _ & Hl)| ->]; [|done]. destruct f as [|c f]; [done|]. injection E as <- _. by apply clear_of_cons in Hl as [? _]. }
  destruct Ht as [[_ <-]|(ts & _ & E)]; [|by eapply H1]. destruct Hf as [(<- & _ & _ & Hl)|Hf]; [by apply clear_of_cons in Hl as [? _]|done].
Qed.
Lemma text_nil T rows : csv_text T rows → T = "" → rows = [].
Proof. intros H E. inversion H as [|?|?|fs t s' rows' H1 H2 H3 E1]; subst; try done. by destruct t. Qed.
Lemma readRecords_step fuel s : readRecords (S fuel) s = match nextLine (S (String.length s)) s with None => ([], None) | Some (line, rest) =>
  match parseField (S (String.length line + String.length rest)) None line rest [] with
  | Ok (fields, rest) => let '(rs, last) := readRecords fuel rest in (fields :: rs, last) | Fail e => ([], Some e) | Panic => ([], None) end end.
Proof. done. Qed.
Lemma records_sound fuel : ∀ s rows, String.length s < fuel → readRecords fuel s = (rows, None) → csv_text (unix s) rows.
Proof.
  induction fuel as [|fuel IH]; intros s rows Hf H; [lia|]. rewrite readRecords_step in H. destruct (nextLine _ s) as [[l r]|] eqn:E.
  - apply nextLine_some in E as (Hl & Hc & Hlen & Hcsv). pose proof (parse_chars (S (String.length l + String.length r)) None l r [] Hl ltac:(lia)) as Hp.
    pose proof (parse_rest (S (String.length l + String.length r)) None l r []) as Hr. destruct (parseField _ _ _ _ _) as [[fs r2]|x|]; [|done|done].
    destruct (readRecords fuel r2) as [rs last] eqn:E2. injection H as <- ->. apply IH in E2; [|lia]. cbn [as_read] in Hp. symmetry in Hp.
    apply chars_sound in Hp. destruct (Hp eq_refl) as (fs' & t & -> & Ht & He). apply Hcsv. cbn [app].
    assert (t ≠ "") as Hne.
    { intros ->. destruct He as [He|[He _]]; destruct l as [|c l]; [done| |done|done]. injection He as -> _. by apply line_lf in Hl as ->. }
    destruct He as [-> |[-> He]]; [by apply csv_line|]. apply text_nil in E2 as ->; [|done]. by apply csv_last.
  - apply nextLine_none in E; [|lia]. injection H as <-. done.
Qed.
Lemma first_line s fs t R : record_text fs t → t ≠ "" → ends t (unix s) R → ∀ fuel, ∃ r2, readRecords (S fuel) s = (let '(rs, last) := readRecords fuel r2 in (fs :: rs, last)) ∧ unix r2 = R ∧ String.length r2 < String.length s.
Proof.
  intros Ht Hne He fuel. rewrite readRecords_step, nextLine_step. destruct (readLine s) as [[l r]|] eqn:E.
  - apply readLine_some in E as (Hl & Hu & _ & Hlen). destruct (String.eqb_spec (chop lf l) "") as [E2|E2].
    + exfalso. pose proof (record_start _ _ Ht) as Hs. destruct t as [|c t]; [done|].
      destruct (chop_empty _ _ Hl E2) as [-> |[-> ->]]; rewrite Hu in He; destruct He as [He|[He _]]; first [discriminate He|injection He; intros; subst; by eapply Hs].
    + pose proof (parse_chars (S (String.length l + String.length r)) None l r [] Hl ltac:(lia)) as Hp.
      pose proof (parse_rest (S (String.length l + String.length r)) None l r []) as Hr. rewrite <-Hu, (chars_complete fs [] t _ R Ht He) in Hp.
      destruct (parseField _ _ _ _ _) as [[fs2 r2]|x|]; [|done|done]. injection Hp as -> Hr2. exists r2. split; [done|]. split; [done|lia].
  - exfalso. apply readLine_none in E as ->. destruct He as [He|[He _]]; [by destruct t|by subst].
Qed.
Lemma records_complete T rows : csv_text T rows → ∀ s fuel, unix s = T → String.length s < fuel → readRecords fuel s = (rows, None).
Proof.
  induction 1 as [|T rows _ IH|fs t Ht Hne|fs t T rows Ht Hne _ IH]; intros s fuel Hu Hf; destruct fuel as [|fuel]; try lia.
  - rewrite readRecords_step. destruct (nextLine _ s) as [[l r]|] eqn:E; [|done]. exfalso.
    assert (∀ f s l r, unix s = "" → nextLine f s ≠ Some (l, r)) as H; [|by eapply H].
    clear. induction f as [|f IH]; intros s l r Hu; [done|]. rewrite nextLine_step. destruct (readLine s) as [[l0 r0]|] eqn:E; [|done].
    apply readLine_some in E as (Hl & Hu2 & _). rewrite Hu in Hu2. destruct l0 as [|c l0]; [|done]. change (String.eqb (chop lf "") "") with true. cbv iota. apply IH. done.
  - destruct (readLine s) as [[l r]|] eqn:E; [|by apply readLine_none in E as ->]. pose proof E as (Hl & Hu2 & _ & Hlen)%readLine_some.
    assert (l = String lf "" ∧ unix r = T) as [-> Hr].
    { rewrite Hu in Hu2. destruct l as [|c l]; [destruct Hl as (l & _ & [E2|[_ ->]]); [by destruct l|done]|]. injection Hu2 as <- Hu2. apply line_lf in Hl as ->. done. }
    rewrite <-(IH r (S fuel) Hr ltac:(lia)). rewrite !readRecords_step, nextLine_step, E. change (String.eqb (chop lf (String lf "")) "") with true. cbv iota.
    by rewrite (nextLine_fuel _ (S (String.length r))) by lia.
  - destruct (first_line s fs t "" Ht Hne ltac:(by right) fuel) as (r2 & -> & Hr & Hlen). 
    assert (readRecords fuel r2 = ([], None)) as ->; [|done]. destruct fuel as [|fuel]; [lia|]. rewrite readRecords_step.
    destruct (nextLine _ r2) as [[l r]|] eqn:E; [|done]. exfalso.
    assert (∀ f s l r, unix s = "" → nextLine f s ≠ Some (l, r)) as H; [|by eapply H].
    clear. induction f as [|f IH]; intros s l r Hu; [done|]. rewrite nextLine_step. destruct (readLine s) as [[l0 r0]|] eqn:E; [|done].
    apply readLine_some in E as (Hl & Hu2 & _). rewrite Hu in Hu2. destruct l0 as [|c l0]; [|done]. change (String.eqb (chop lf "") "") with true. cbv iota. apply IH. done.
  - destruct (first_line s fs t T Ht Hne ltac:(by left) fuel) as (r2 & -> & Hr & Hlen). by rewrite (IH r2 fuel Hr) by lia.
Qed.
Lemma csv_reads s rows : csv_records s = (rows, None) ↔ csv_text (unix s) rows.
Proof. split; [apply records_sound; lia|]. intros H. eapply records_complete; [exact H|done|lia]. Qed.
