(** Proofs about [Merge]. *)
From Verif Require Export Spec_Merge Proof_TxLog.
From Coq Require Import Lia ZifyBool ZifyNat.
From stdpp Require Import options.

(** ** Sorted logs *)
Lemma time_sorted_cons x l : time_sorted (x :: l) ↔ (∀ y, y ∈ l → earlier x y) ∧ time_sorted l.
Proof.
  split.
  - intros H. inversion H as [|? ? H1 H2]; subst. split; [|done]. by apply Forall_forall.
  - intros [H1 H2]. constructor; [done|]. by apply Forall_forall.
Qed.

Lemma time_sorted_app l1 l2 :
  time_sorted (l1 ++ l2) ↔ time_sorted l1 ∧ time_sorted l2 ∧ ∀ x y, x ∈ l1 → y ∈ l2 → earlier x y.
Proof.
  induction l1 as [|x l1 IH]; simpl.
  - split; [intros ?; split; [constructor|split; [done|by intros ? ? ?%elem_of_nil]]|by intros (_ & ? & _)].
  - rewrite !time_sorted_cons, IH. setoid_rewrite elem_of_app. setoid_rewrite elem_of_cons.
    split.
    + intros (H1 & H2 & H3 & H4). repeat split; eauto. intros ? ? [->|?] ?; eauto.
    + intros ((H1 & H2) & H3 & H4). repeat split; eauto. intros ? [?|?]; eauto.
Qed.

Lemma time_sorted_ids l : time_sorted l → time_ids l.
Proof.
  unfold time_ids. induction l as [|z l IH]; [by intros ? ? ? ?%elem_of_nil|].
  rewrite time_sorted_cons. intros [H1 H2] x y [->|Hx]%elem_of_cons [->|Hy]%elem_of_cons Ht; eauto.
  - specialize (H1 _ Hy). unfold earlier in H1. lia.
  - specialize (H1 _ Hx). unfold earlier in H1. lia.
Qed.

Lemma time_sorted_unique l1 l2 :
  time_sorted l1 → time_sorted l2 → (∀ x, x ∈ l1 ↔ x ∈ l2) → l1 = l2.
Proof.
  revert l2. induction l1 as [|x l1 IH]; intros l2 H1 H2 Heq.
  - destruct l2 as [|y l2]; [done|]. assert (y ∈ @nil tx) as H%elem_of_nil by (apply Heq; left). done.
  - destruct l2 as [|y l2].
    { assert (x ∈ @nil tx) as H%elem_of_nil by (apply Heq; left). done. }
    rewrite time_sorted_cons in H1, H2. destruct H1 as [H1 H1'], H2 as [H2 H2'].
    assert (x = y) as ->.
    { assert (x ∈ y :: l2) as [->|Hx]%elem_of_cons by (apply Heq; left); [done|].
      assert (y ∈ x :: l1) as [->|Hy]%elem_of_cons by (apply Heq; left); [done|].
      specialize (H1 _ Hy). specialize (H2 _ Hx). unfold earlier in *. lia. }
    f_equal. apply IH; try done. intros z. specialize (Heq z). rewrite !elem_of_cons in Heq.
    split; intros Hz.
    + destruct (proj1 Heq (or_intror Hz)) as [->|]; [|done]. specialize (H1 _ Hz). unfold earlier in *. lia.
    + destruct (proj2 Heq (or_intror Hz)) as [->|]; [|done]. specialize (H2 _ Hz). unfold earlier in *. lia.
Qed.

Lemma is_union_unique a b c1 c2 : is_union a b c1 → is_union a b c2 → c1 = c2.
Proof. intros [H1 H2] [H3 H4]. apply time_sorted_unique; try done. intros x. by rewrite H2, H4. Qed.

Lemma time_sorted_NoDup l : time_sorted l → NoDup l.
Proof.
  induction l as [|x l IH]; [constructor|]. rewrite time_sorted_cons. intros [H1 H2].
  constructor; [|auto]. intros Hx%H1. unfold earlier in Hx. lia.
Qed.

(** ** Replayable = well-formed, by sets and times *)
Definition wf_log (l : list tx) : Prop :=
  ∀ x, x ∈ l → tx_kind x ≠ "add" →
    (∃ y, y ∈ l ∧ tx_kind y = "add" ∧ tx_uuid y = tx_uuid x ∧ earlier y x) ∧
    (∀ d, d ∈ l → tx_kind d = "del" → tx_uuid d = tx_uuid x → ¬ earlier d x).

Lemma lookup_sorted_lt l i j x y :
  time_sorted l → l !! i = Some x → l !! j = Some y → earlier x y → (i < j)%nat.
Proof.
  intros Hs Hi Hj He. destruct (Nat.lt_trichotomy i j) as [|[->|Hlt]]; [done| |].
  - rewrite Hi in Hj. injection Hj as <-. unfold earlier in He. lia.
  - exfalso. revert i j Hi Hj Hlt. induction l as [|z l IH]; intros i j Hi Hj Hlt; [done|].
    rewrite time_sorted_cons in Hs. destruct Hs as [Hz Hs].
    destruct j as [|j], i as [|i]; simpl in *; try lia.
    + injection Hj as ->. apply elem_of_list_lookup_2 in Hi. specialize (Hz _ Hi). unfold earlier in *. lia.
    + apply (IH Hs i j); [done|done|lia].
Qed.

Lemma sorted_lookup_earlier l i j x y :
  time_sorted l → l !! i = Some x → l !! j = Some y → (i < j)%nat → earlier x y.
Proof.
  revert i j. induction l as [|z l IH]; intros i j Hs Hi Hj Hlt; [done|].
  rewrite time_sorted_cons in Hs. destruct Hs as [Hz Hs].
  destruct j as [|j], i as [|i]; simpl in *; try lia.
  - injection Hi as ->. apply elem_of_list_lookup_2 in Hj. by apply Hz.
  - apply (IH i j); [done|done|done|lia].
Qed.

Lemma visible_sorted l u : time_sorted l →
  (visible l u ↔ ∃ y, y ∈ l ∧ is_add u y ∧ ∀ d, d ∈ l → is_del u d → ¬ earlier y d).
Proof.
  intros Hs. split.
  - intros (i & y & Hi & Ha & Hn). exists y. split; [by eapply elem_of_list_lookup_2|]. split; [done|].
    intros d Hd Hdel He. apply elem_of_list_lookup in Hd as [j Hj].
    apply (Hn j d); try done. by eapply lookup_sorted_lt.
  - intros (y & Hy & Ha & Hn). apply elem_of_list_lookup in Hy as [i Hi].
    exists i, y. split; [done|]. split; [done|]. intros j d Hlt Hj Hdel.
    apply (Hn d); [by eapply elem_of_list_lookup_2|done|]. by eapply sorted_lookup_earlier.
Qed.

Lemma unique_adds_sub l l' : (∀ x, x ∈ l → x ∈ l') → unique_adds l' → unique_adds l.
Proof. intros H Hu x y Hx Hy. apply Hu; auto. Qed.
Lemma known_kinds_sub l l' : (∀ x, x ∈ l → x ∈ l') → known_kinds l' → known_kinds l.
Proof. intros H Hu x Hx. apply Hu; auto. Qed.
Lemma time_ids_sub l l' : (∀ x, x ∈ l → x ∈ l') → time_ids l' → time_ids l.
Proof. intros H Hu x y Hx Hy. apply Hu; auto. Qed.

Lemma replayable_wf l : time_sorted l → unique_adds l → known_kinds l → (replayable l ↔ wf_log l).
Proof.
  induction l as [|t l IH] using rev_ind; intros Hs Hu Hk.
  - split; [|intros _; exists ∅; constructor]. intros _ x Hx. by apply elem_of_nil in Hx.
  - pose proof Hs as Hs0. apply time_sorted_app in Hs as (Hs & _ & Hlast).
    assert (∀ x, x ∈ l → earlier x t) as Hlt. { intros x Hx. apply Hlast; [done|by left]. }
    assert (Hsub : ∀ x, x ∈ l → x ∈ l ++ [t]) by (intros; apply elem_of_app; by left).
    specialize (IH Hs (unique_adds_sub _ _ Hsub Hu) (known_kinds_sub _ _ Hsub Hk)).
    assert (t ∉ l) as Hnt. { intros Ht%Hlt. unfold earlier in Ht. lia. }
    split.
    + intros [m (m1 & H1 & Hst)%replays_snoc].
      assert (wf_log l) as Hwf by (apply IH; by exists m1).
      intros x Hx Hna. apply elem_of_app in Hx as [Hx|Hx].
      * destruct (Hwf x Hx Hna) as [(y & Hy & ? & ? & ?) Hd]. split; [exists y; auto|].
        intros d [Hd'|Hd']%elem_of_app; [by apply Hd|].
        apply elem_of_list_singleton in Hd' as ->. intros _ _ He. specialize (Hlt _ Hx). unfold earlier in *; lia.
      * apply elem_of_list_singleton in Hx as ->.
        assert (visible l (tx_uuid t)) as Hv.
        { apply (last_writer l m1 H1 (tx_uuid t)).
          destruct (Hk t) as [?|[?|[?|?]]]; [apply elem_of_app; right; by left|..]; try done;
            inversion Hst; subst; simpl in *; try congruence; eauto. }
        apply visible_sorted in Hv as (y & Hy & [Hya Hyu] & Hyd); [|done].
        split.
        -- exists y. repeat split; auto.
        -- intros d [Hd|Hd]%elem_of_app Hdk Hdu.
           2: { apply elem_of_list_singleton in Hd as ->. intros He. unfold earlier in He. lia. }
           intros _. 
           assert (¬ earlier y d) as Hnyd by (apply Hyd; [done|split; [done|by rewrite Hdu]]).
           destruct (Hwf d Hd) as [(y' & Hy' & Hya' & Hyu' & He) _]; [by rewrite Hdk|].
           assert (y' = y) as ->; [|done]. apply Hu; auto. congruence.
    + intros Hwf.
      assert (wf_log l) as Hwfl.
      { intros x Hx Hna. destruct (Hwf x (Hsub _ Hx) Hna) as [(y & Hy & ? & ? & He) Hd]. split.
        - exists y. apply elem_of_app in Hy as [Hy|Hy]; [done|]. apply elem_of_list_singleton in Hy as ->.
          specialize (Hlt _ Hx). unfold earlier in *; lia.
        - intros d Hd'. apply Hd. auto. }
      apply IH in Hwfl as [m Hm].
      assert (t ∈ l ++ [t]) as Ht by (apply elem_of_app; right; by left).
      assert (∃ m', tx_step m t m') as [m' Hm']; [|exists m'; apply replays_snoc; eauto].
      destruct (decide (tx_kind t = "add")) as [Ha|Hna].
      * assert (m !! tx_uuid t = None) as Hnone.
        { destruct (m !! tx_uuid t) eqn:E; [exfalso|done].
          assert (visible l (tx_uuid t)) as Hv by (apply (last_writer l m Hm (tx_uuid t)); eauto).
          apply visible_sorted in Hv as (y & Hy & [Hya Hyu] & _); [|done].
          assert (y = t) as -> by (apply Hu; auto). done. }
        destruct t; simpl in *; subst. eexists. by constructor.
      * destruct (Hwf t Ht Hna) as [(y & Hy & Hya & Hyu & He) Hd].
        assert (is_Some (m !! tx_uuid t)) as [e Hsome].
        { apply (last_writer l m Hm (tx_uuid t)). apply visible_sorted; [done|].
          exists y. split.
          - apply elem_of_app in Hy as [Hy|Hy]; [done|]. apply elem_of_list_singleton in Hy as ->. done.
          - split; [done|]. intros d Hd' [Hdk Hdu] _. apply (Hd d); auto. }
        destruct (Hk t Ht) as [?|[?|[?|?]]]; [done|..]; destruct t; simpl in *; subst; eexists; by econstructor.
Qed.

(** ** The union *)
Fixpoint union_log (a : list tx) : list tx → list tx :=
  match a with
  | [] => λ b, b
  | x :: a' =>
      fix go (b : list tx) :=
        match b with
        | [] => x :: a'
        | y :: b' =>
            if (tx_time x =? tx_time y)%Z then x :: union_log a' b'
            else if (tx_time x <? tx_time y)%Z then x :: union_log a' (y :: b')
            else y :: go b'
        end
  end.

Lemma union_log_cons x a y b :
  union_log (x :: a) (y :: b) =
    if (tx_time x =? tx_time y)%Z then x :: union_log a b
    else if (tx_time x <? tx_time y)%Z then x :: union_log a (y :: b)
    else y :: union_log (x :: a) b.
Proof. done. Qed.
Lemma union_log_nil_r a : union_log a [] = a.
Proof. by destruct a. Qed.

(** Induction over two lists, consuming from either. *)
Lemma two_list_ind (P : list tx → list tx → Prop) :
  (∀ b, P [] b) → (∀ a, P a []) →
  (∀ x a y b, P a b → P a (y :: b) → P (x :: a) b → P (x :: a) (y :: b)) →
  ∀ a b, P a b.
Proof.
  intros H1 H2 H3 a. induction a as [|x a IHa]; intros b; [done|].
  induction b as [|y b IHb]; [done|]. apply H3; auto.
Qed.

Lemma union_log_elem a b x : x ∈ union_log a b → x ∈ a ∨ x ∈ b.
Proof.
  revert a b. refine (two_list_ind _ _ _ _).
  - auto.
  - intros a. rewrite union_log_nil_r. auto.
  - intros z a y b IH1 IH2 IH3. rewrite union_log_cons.
    repeat case_match; rewrite elem_of_cons; intros [->|Hx]; auto; set_solver.
Qed.

Lemma union_log_complete a b x : time_ids (a ++ b) → x ∈ a ∨ x ∈ b → x ∈ union_log a b.
Proof.
  revert a b. refine (two_list_ind _ _ _ _).
  - intros b _ [H%elem_of_nil|?]; done.
  - intros a _ [?|H%elem_of_nil]; [by rewrite union_log_nil_r|done].
  - intros z a y b IH1 IH2 IH3 Hid Hx. rewrite union_log_cons.
    destruct (Z.eqb_spec (tx_time z) (tx_time y)).
    + assert (z = y) as -> by (apply Hid; set_solver). rewrite elem_of_cons.
      destruct Hx as [[->|Hx]%elem_of_cons|[->|Hx]%elem_of_cons]; auto; right; apply IH1; auto;
        eapply time_ids_sub; try exact Hid; set_solver.
    + destruct (Z.ltb_spec (tx_time z) (tx_time y)); rewrite elem_of_cons.
      * destruct Hx as [[->|Hx]%elem_of_cons|Hx]; auto; right; apply IH2; auto;
        eapply time_ids_sub; try exact Hid; set_solver.
      * destruct Hx as [Hx|[->|Hx]%elem_of_cons]; auto; right; apply IH3; auto;
        eapply time_ids_sub; try exact Hid; set_solver.
Qed.

Lemma union_log_sorted a b : time_sorted a → time_sorted b → time_sorted (union_log a b).
Proof.
  revert a b. refine (two_list_ind _ _ _ _).
  - done.
  - intros a ? _. by rewrite union_log_nil_r.
  - intros x a y b IH1 IH2 IH3 Ha Hb. rewrite union_log_cons.
    pose proof Ha as Ha'. pose proof Hb as Hb'.
    apply time_sorted_cons in Ha' as [Hx Ha'], Hb' as [Hy Hb'].
    destruct (Z.eqb_spec (tx_time x) (tx_time y)).
    + apply time_sorted_cons. split; [|auto]. intros z [Hz|Hz]%union_log_elem; [auto|].
      specialize (Hy _ Hz). unfold earlier in *; lia.
    + destruct (Z.ltb_spec (tx_time x) (tx_time y)).
      * apply time_sorted_cons. split; [|auto]. intros z [Hz|[->|Hz]%elem_of_cons]%union_log_elem; [auto|..].
        -- done.
        -- specialize (Hy _ Hz). unfold earlier in *; lia.
      * apply time_sorted_cons. split; [|auto]. intros z [[->|Hz]%elem_of_cons|Hz]%union_log_elem; [| |auto].
        -- unfold earlier; lia.
        -- specialize (Hx _ Hz). unfold earlier in *; lia.
Qed.

Lemma union_log_is_union a b :
  time_sorted a → time_sorted b → time_ids (a ++ b) → is_union a b (union_log a b).
Proof.
  intros. split; [by apply union_log_sorted|]. intros x. split; [apply union_log_elem|by apply union_log_complete].
Qed.

(** ** The loop without resolutions: no panic, nothing dropped *)
Definition del_bounded (s : mstate) : Prop :=
  ∀ u i, ms_deleted s !! u = Some i → (i < length (ms_c s))%nat.

Lemma push_check_nil x s : del_bounded s →
  ∃ s', push_check [] x s = Ok s' ∧ ms_c s' = ms_c s ++ [x] ∧ del_bounded s'.
Proof.
  intros Hb. unfold push_check. simpl.
  destruct (ms_deleted s !! tx_uuid x) as [i|] eqn:E.
  - destruct ((ms_c s ++ [x]) !! i) as [d|] eqn:Ei.
    + destruct (conf_noted (ms_conf s) (tx_time d)); eexists; (split; [done|]); (split; [done|]);
        intros u k Hk; simpl; rewrite app_length; specialize (Hb u k Hk); lia.
    + exfalso. apply lookup_ge_None in Ei. rewrite app_length in Ei. specialize (Hb _ _ E). simpl in Ei. lia.
  - destruct (negb _); eexists; (split; [done|]); (split; [done|]).
    + intros u k Hk. simpl. rewrite app_length. specialize (Hb u k Hk). lia.
    + intros u k. simpl. rewrite app_length. simpl.
      destruct (decide (tx_uuid x = u)) as [<-|?].
      * rewrite lookup_insert. intros [= <-]. lia.
      * rewrite lookup_insert_ne by done. intros Hk. specialize (Hb u k Hk). lia.
Qed.

Lemma push_rest_nil l s : del_bounded s →
  ∃ s', push_rest [] l s = Ok s' ∧ ms_c s' = ms_c s ++ l ∧ del_bounded s'.
Proof.
  revert s; induction l as [|x l IH]; intros s Hb; simpl.
  - exists s. by rewrite app_nil_r.
  - destruct (push_check_nil x s Hb) as (s1 & -> & Hc & Hb1).
    destruct (IH s1 Hb1) as (s2 & -> & Hc2 & Hb2). exists s2. split; [done|]. split; [|done].
    by rewrite Hc2, Hc, <-app_assoc.
Qed.

Lemma root_check_c r i j x y s : ms_c (root_check r i j x y s) = ms_c s ∧ ms_deleted (root_check r i j x y s) = ms_deleted s.
Proof. unfold root_check. repeat case_match; done. Qed.

Lemma merge_loop_cons r x a i y b j s :
  merge_loop r (x :: a) i (y :: b) j s =
    if (tx_time x =? tx_time y)%Z then
      let del := if String.eqb (tx_kind x) TxDelete
                 then <[tx_uuid x := i]> (ms_deleted s) else ms_deleted s in
      merge_loop r a (S i) b (S j) (mk_mstate (ms_c s ++ [x]) del (ms_conf s))
    else
      let s := root_check r i j x y s in
      if (tx_time x <? tx_time y)%Z then
        match push_check r x s with
        | Ok s' => merge_loop r a (S i) (y :: b) j s'
        | Fail e => Fail e
        | Panic => Panic
        end
      else
        match push_check r y s with
        | Ok s' => merge_loop r (x :: a) i b (S j) s'
        | Fail e => Fail e
        | Panic => Panic
        end.
Proof. done. Qed.
Lemma merge_loop_nil_l r i b j s : merge_loop r [] i b j s = push_rest r b s.
Proof. done. Qed.
Lemma merge_loop_nil_r r a i j s : merge_loop r a i [] j s = push_rest r a s.
Proof. by destruct a. Qed.

Lemma merge_loop_total a b : ∀ i j s,
  del_bounded s → (i ≤ length (ms_c s))%nat →
  ∃ s', merge_loop [] a i b j s = Ok s' ∧ ms_c s' = ms_c s ++ union_log a b.
Proof.
  revert a b. refine (two_list_ind _ _ _ _).
  - intros b i j s Hb Hi. rewrite merge_loop_nil_l.
    destruct (push_rest_nil b s Hb) as (s' & ? & ? & _). eauto.
  - intros a i j s Hb Hi. rewrite merge_loop_nil_r, union_log_nil_r.
    destruct (push_rest_nil a s Hb) as (s' & ? & ? & _). eauto.
  - intros x a y b IH1 IH2 IH3 i j s Hb Hi. rewrite merge_loop_cons, union_log_cons.
    destruct (tx_time x =? tx_time y)%Z.
    + cbv zeta. edestruct IH1 as (s' & Hs' & Hc').
      3: { exists s'. split; [exact Hs'|]. rewrite Hc'. simpl. by rewrite <-app_assoc. }
      2: { simpl. rewrite app_length. simpl. lia. }
      intros u k. simpl. rewrite app_length. simpl.
      destruct (String.eqb _ _).
      * destruct (decide (tx_uuid x = u)) as [<-|?].
        -- rewrite lookup_insert. intros [= <-]. lia.
        -- rewrite lookup_insert_ne by done. intros Hk. specialize (Hb u k Hk). lia.
      * intros Hk. specialize (Hb u k Hk). lia.
    + cbv zeta. destruct (root_check_c [] i j x y s) as [Hrc Hrd].
      set (s0 := root_check [] i j x y s) in *.
      assert (del_bounded s0) as Hb0 by (intros u k; rewrite Hrc, Hrd; apply Hb).
      destruct (tx_time x <? tx_time y)%Z.
      * destruct (push_check_nil x s0 Hb0) as (s1 & -> & Hc & Hb1).
        destruct (IH2 (S i) j s1 Hb1) as (s' & Hs' & Hc').
        { rewrite Hc, app_length, Hrc. simpl. lia. }
        exists s'. split; [done|]. by rewrite Hc', Hc, Hrc, <-app_assoc.
      * destruct (push_check_nil y s0 Hb0) as (s1 & -> & Hc & Hb1).
        destruct (IH3 i (S j) s1 Hb1) as (s' & Hs' & Hc').
        { rewrite Hc, app_length, Hrc. simpl. lia. }
        exists s'. split; [done|]. by rewrite Hc', Hc, Hrc, <-app_assoc.
Qed.

Lemma del_bounded_init : del_bounded (mk_mstate [] ∅ []).
Proof. intros u i. simpl. by rewrite lookup_empty. Qed.

Lemma merge_fast_cases a b :
  (merge_fast a b = Panic ∧ a = [] ∧ b = []) ∨
  (merge_fast a b = Ok true ∧ look_alike a b) ∨
  (merge_fast a b = Ok false ∧ ¬ look_alike a b).
Proof.
  unfold merge_fast, look_alike. destruct (Nat.eqb_spec (length a) (length b)) as [Hl|Hl].
  2: { right; right. split; [done|]. by intros (? & _). }
  destruct a as [|x a], b as [|y b]; simpl in Hl; try lia; [by left|].
  right. destruct (Z.eqb_spec (tx_time x) (tx_time y)) as [Ht|Ht].
  - destruct (last (x :: a)) as [x'|] eqn:Ea; [|by apply last_None in Ea].
    destruct (last (y :: b)) as [y'|] eqn:Eb; [|by apply last_None in Eb].
    destruct (Z.eqb_spec (tx_time x') (tx_time y')) as [Ht'|Ht'].
    + left. split; [done|]. split; [simpl; lia|]. split; [by exists x, y|by exists x', y'].
    + right. split; [done|]. intros (_ & _ & (x'' & y'' & ? & ? & ?)). by simplify_eq.
  - right. split; [done|]. intros (_ & (x'' & y'' & ? & ? & ?) & _). by simplify_eq/=.
Qed.

Lemma Merge_panic_iff a b : TxMerge a b [] = Panic ↔ a = [] ∧ b = [].
Proof.
  unfold TxMerge; simpl. destruct (merge_fast_cases a b) as [(-> & -> & ->)|[(-> & Hl)|(Hf & Hl)]].
  - done.
  - split; [done|]. intros [-> ->]. destruct Hl as (_ & (x & y & ? & _) & _). done.
  - rewrite Hf.
    destruct (merge_loop_total a b 0 0 (mk_mstate [] ∅ []) del_bounded_init) as (s & -> & _); [simpl; lia|].
    split; [by repeat case_match|]. intros [-> ->]. done.
Qed.

Lemma Merge_nofail a b r e : TxMerge a b r ≠ Fail e.
Proof.
  assert (∀ l s, push_rest r l s ≠ Fail e) as Hrest.
  { induction l as [|x l IH]; intros s; simpl; [done|].
    unfold push_check. repeat case_match; simplify_eq; auto. }
  assert (∀ a b i j s, merge_loop r a i b j s ≠ Fail e) as Hloop.
  { refine (two_list_ind _ _ _ _).
    - intros. rewrite merge_loop_nil_l. apply Hrest.
    - intros. rewrite merge_loop_nil_r. apply Hrest.
    - intros x a' y b' IH1 IH2 IH3 i j s. rewrite merge_loop_cons. cbv zeta.
      destruct (tx_time x =? tx_time y)%Z; [apply IH1|].
      destruct (tx_time x <? tx_time y)%Z; destruct (push_check r _ _) eqn:E; auto;
        unfold push_check in E; repeat case_match; simplify_eq. }
  unfold TxMerge. destruct (existsb _ _); [done|].
  destruct (merge_fast_cases a b) as [[-> _]|[[-> _]|[-> _]]]; [done|done|].
  destruct (merge_loop _ _ _ _ _ _) eqn:E; [by case_match| |done].
  intros [= ->]. by apply Hloop in E.
Qed.

Lemma Merge_merged_union a b c : TxMerge a b [] = Ok (Merged c) →
  (look_alike a b ∧ c = a) ∨ (¬ look_alike a b ∧ c = union_log a b).
Proof.
  unfold TxMerge; simpl. destruct (merge_fast_cases a b) as [(-> & -> & ->)|[(-> & Hl)|(-> & Hl)]].
  - done.
  - intros [= <-]. by left.
  - destruct (merge_loop_total a b 0 0 (mk_mstate [] ∅ []) del_bounded_init) as (s & -> & Hc); [simpl; lia|].
    simpl in Hc. destruct (ms_conf s); [|done]. intros [= <-]. right. by rewrite Hc.
Qed.

Lemma union_log_self a : union_log a a = a.
Proof.
  induction a as [|x a IH]; [done|]. rewrite union_log_cons, Z.eqb_refl. by rewrite IH.
Qed.

Lemma Merge_is_union a b c :
  time_sorted a → time_sorted b → time_ids (a ++ b) → no_impostor a b →
  TxMerge a b [] = Ok (Merged c) → is_union a b c.
Proof.
  intros Ha Hb Hid Hni HM.
  assert (c = union_log a b) as ->.
  { destruct (Merge_merged_union a b c HM) as [[Hl ->]|[_ ->]]; [|done].
    rewrite <-(Hni Hl). by rewrite union_log_self. }
  by apply union_log_is_union.
Qed.
