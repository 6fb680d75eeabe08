(** Conflicts, resolutions and convergence of [Merge]. *)
From Verif Require Export Proof_Merge.
From Coq Require Import Lia ZifyBool ZifyNat.
From stdpp Require Import options.

(** ** A simpler machine: scanning the union *)
Fixpoint scan (res : list conflict) (l : list tx) (D : gmap string tx) (conf : list conflict)
    : option (list tx * list conflict) :=
  match l with
  | [] => Some ([], conf)
  | x :: l' =>
      match D !! tx_uuid x with
      | None =>
          if negb (String.eqb (tx_kind x) TxDelete) then
            match scan res l' D conf with Some (k, cf) => Some (x :: k, cf) | None => None end
          else if res_discard_initial res (tx_time x) then scan res l' D conf
          else match scan res l' (<[tx_uuid x := x]> D) conf with
               | Some (k, cf) => Some (x :: k, cf) | None => None end
      | Some d =>
          match res_find res (tx_time d) with
          | Some resolveDiscardConflict => scan res l' D conf
          | Some _ => None
          | None =>
              let conf' := if conf_noted conf (tx_time d) then conf
                           else conf ++ [mk_conflict ConflictKindDeleteSet d x resolveNone] in
              match scan res l' D conf' with Some (k, cf) => Some (x :: k, cf) | None => None end
          end
      end
  end.

Definition agrees (s : mstate) (D : gmap string tx) (u : string) : Prop :=
  match D !! u with
  | None => ms_deleted s !! u = None
  | Some d => ∃ i, ms_deleted s !! u = Some i ∧ ms_c s !! i = Some d
  end.

Lemma agrees_grow c del cf del' cf' c' D u :
  agrees (mk_mstate c del cf) D u → del' !! u = del !! u → agrees (mk_mstate (c ++ c') del' cf') D u.
Proof.
  unfold agrees; simpl. intros H ->. destruct (D !! u); [|done].
  destruct H as (i & ? & ?). exists i. split; [done|]. by apply lookup_app_l_Some.
Qed.

(** What the simulation says about a result. *)
Definition simulated (s : mstate) (r : option (list tx * list conflict)) (o : outcome mstate) : Prop :=
  match r with
  | None => o = Panic
  | Some (k, cf) => ∃ s', o = Ok s' ∧ ms_c s' = ms_c s ++ k ∧ ms_conf s' = cf
  end.

(** One [push_check] against one step of [scan], the rest by continuation. *)
Lemma push_check_sim res x s D (K : mstate → outcome mstate) l' :
  agrees s D (tx_uuid x) →
  (∀ s' D' keep, (∀ u, agrees s D u → agrees s' D' u) →
     ms_c s' = ms_c s ++ keep →
     (D' = D ∨ (D' = <[tx_uuid x := x]> D ∧ tx_kind x = "del")) →
     simulated s' (scan res l' D' (ms_conf s')) (K s')) →
  simulated s (scan res (x :: l') D (ms_conf s))
    (match push_check res x s with Ok s' => K s' | Fail e => Fail e | Panic => Panic end).
Proof.
  intros Hag HK. destruct s as [c del cf]. simpl in *. unfold push_check. simpl.
  assert (Hkeep : ∀ r, (∃ s', K r = Ok s') → True) by done. clear Hkeep.
  unfold agrees in Hag. simpl in Hag.
  destruct (D !! tx_uuid x) as [d|] eqn:ED.
  - destruct Hag as (i & Hi & Hci). rewrite Hi.
    assert ((c ++ [x]) !! i = Some d) as -> by (by apply lookup_app_l_Some).
    destruct (res_find res (tx_time d)) as [[]|] eqn:Er; try done.
    + specialize (HK (mk_mstate c del cf) D []). simpl in HK.
      apply HK; auto. by rewrite app_nil_r.
    + destruct (conf_noted cf (tx_time d)) eqn:En.
      * specialize (HK (mk_mstate (c ++ [x]) del cf) D [x]).
        destruct (scan res l' D cf) as [[k cf']|] eqn:Es; simpl in *; rewrite Es in HK; simpl in HK.
        -- destruct HK as (s' & ? & Hc & ?); auto. { intros u Hu. eapply agrees_grow; [exact Hu|done]. }
           exists s'. rewrite Hc, <-app_assoc. done.
        -- apply HK; auto. intros u Hu. eapply agrees_grow; [exact Hu|done].
      * set (cf1 := cf ++ [mk_conflict ConflictKindDeleteSet d x resolveNone]) in *.
        specialize (HK (mk_mstate (c ++ [x]) del cf1) D [x]).
        destruct (scan res l' D cf1) as [[k cf']|] eqn:Es; simpl in *; rewrite Es in HK; simpl in HK.
        -- destruct HK as (s' & ? & Hc & ?); auto. { intros u Hu. eapply agrees_grow; [exact Hu|done]. }
           exists s'. rewrite Hc, <-app_assoc. done.
        -- apply HK; auto. intros u Hu. eapply agrees_grow; [exact Hu|done].
  - rewrite Hag. destruct (negb (tx_kind x =? TxDelete)%string) eqn:Ek.
    + specialize (HK (mk_mstate (c ++ [x]) del cf) D [x]).
      destruct (scan res l' D cf) as [[k cf']|] eqn:Es; simpl in *; rewrite Es in HK; simpl in HK.
      * destruct HK as (s' & ? & Hc & ?); auto. { intros u Hu. eapply agrees_grow; [exact Hu|done]. }
        exists s'. rewrite Hc, <-app_assoc. done.
      * apply HK; auto. intros u Hu. eapply agrees_grow; [exact Hu|done].
    + apply negb_false_iff, String.eqb_eq in Ek.
      destruct (res_discard_initial res (tx_time x)).
      * specialize (HK (mk_mstate c del cf) D []). simpl in HK.
        apply HK; auto. by rewrite app_nil_r.
      * specialize (HK (mk_mstate (c ++ [x]) (<[tx_uuid x:=length c]> del) cf) (<[tx_uuid x:=x]> D) [x]).
        assert (∀ u, agrees (mk_mstate c del cf) D u →
           agrees (mk_mstate (c ++ [x]) (<[tx_uuid x:=length c]> del) cf) (<[tx_uuid x:=x]> D) u) as Hgrow.
        { intros u Hu. destruct (decide (tx_uuid x = u)) as [<-|Hne].
          - unfold agrees; simpl. rewrite lookup_insert. exists (length c).
            rewrite lookup_insert. split; [done|]. by rewrite lookup_app_r, Nat.sub_diag by lia.
          - unfold agrees; simpl. rewrite !lookup_insert_ne by done.
            apply (agrees_grow _ _ _ del cf [x]) in Hu; [exact Hu|done]. }
        destruct (scan res l' (<[tx_uuid x:=x]> D) cf) as [[k cf']|] eqn:Es; simpl in *; rewrite Es in HK; simpl in HK.
        -- destruct HK as (s' & ? & Hc & ?); auto. exists s'. rewrite Hc, <-app_assoc. done.
        -- apply HK; auto.
Qed.

Lemma push_rest_sim res l : ∀ s D,
  (∀ x, x ∈ l → agrees s D (tx_uuid x)) →
  simulated s (scan res l D (ms_conf s)) (push_rest res l s).
Proof.
  induction l as [|x l IH]; intros s D Hag.
  - simpl. exists s. by rewrite app_nil_r.
  - apply (push_check_sim res x s D (push_rest res l) l).
    + apply Hag. by left.
    + intros s' D' keep Hall _ _. apply IH. intros y Hy. apply Hall, Hag. by right.
Qed.

Lemma wf_conflict_free l : wf_log l → unique_adds l → conflict_free l.
Proof.
  intros Hwf Hu d x Hd Hx Hk Hux He.
  destruct (decide (tx_kind x = "add")) as [Ha|Hna].
  - destruct (Hwf d Hd) as [(y & Hy & Hya & Hyu & Hye) _]; [by rewrite Hk|].
    assert (y = x) as -> by (apply Hu; auto; congruence). unfold earlier in *. lia.
  - destruct (Hwf x Hx Hna) as [_ Hd']. by apply (Hd' d).
Qed.

Lemma compatible_sub_l a b : compatible a b → unique_adds a.
Proof. intros [_ H]. eapply unique_adds_sub; [|exact H]. intros; apply elem_of_app; by left. Qed.
Lemma compatible_sub_r a b : compatible a b → unique_adds b.
Proof. intros [_ H]. eapply unique_adds_sub; [|exact H]. intros; apply elem_of_app; by right. Qed.

Lemma valid_conflict_free l : valid_log l → unique_adds l → conflict_free l.
Proof. intros (Hs & Hr & Hk) Hu. apply wf_conflict_free; [|done]. by apply replayable_wf. Qed.

Lemma valid_wf l : valid_log l → unique_adds l → wf_log l.
Proof. intros (Hs & Hr & Hk) Hu. by apply replayable_wf. Qed.

(** The conflicts the loop starts with: the root conflict, if the logs start
    differently and it was not forced. *)
Definition conf_start (res : list conflict) (i j : nat) (a b : list tx) (s : mstate) : list conflict :=
  match a, b with
  | x :: _, y :: _ => if (tx_time x =? tx_time y)%Z then ms_conf s else ms_conf (root_check res i j x y s)
  | _, _ => ms_conf s
  end.

Lemma conf_start_later res i j a b s : (i ≠ 0 ∨ j ≠ 0)%nat → conf_start res i j a b s = ms_conf s.
Proof.
  intros H. unfold conf_start, root_check. destruct a, b; try done. case_match; [done|].
  destruct (Nat.eqb_spec i 0), (Nat.eqb_spec j 0); simpl; try done. lia.
Qed.

Section sim.
  Context (A B : list tx) (res : list conflict).
  Context (HcfA : conflict_free A) (HcfB : conflict_free B) (Hid : time_ids (A ++ B)).
  Context (Hres : ∀ x, x ∈ A → x ∈ B → tx_kind x = "del" → res_discard_initial res (tx_time x) = false).

  Lemma merge_loop_sim a b : ∀ i j s D,
    (∀ x, x ∈ a → x ∈ A) → (∀ x, x ∈ b → x ∈ B) → time_sorted a → time_sorted b →
    (∀ u d, D !! u = Some d → (d ∈ A ∨ d ∈ B) ∧ tx_kind d = "del" ∧ tx_uuid d = u ∧
       ∀ x, x ∈ a ∨ x ∈ b → earlier d x) →
    (∀ x, x ∈ a ∨ x ∈ b → agrees s D (tx_uuid x)) →
    simulated s (scan res (union_log a b) D (conf_start res i j a b s)) (merge_loop res a i b j s).
  Proof using All.
    revert a b. refine (two_list_ind _ _ _ _).
    - intros b i j s D _ HB _ _ _ Hag. apply push_rest_sim. intros x Hx. apply Hag. by right.
    - intros a i j s D HA _ _ _ _ Hag. rewrite merge_loop_nil_r, union_log_nil_r.
      replace (conf_start res i j a [] s) with (ms_conf s) by (by destruct a).
      apply push_rest_sim. intros x Hx. apply Hag. by left.
    - intros x a y b IH1 IH2 IH3 i j s D HA HB Hsa Hsb HD Hag.
      rewrite merge_loop_cons, union_log_cons. unfold conf_start.
      pose proof Hsa as Hsa'. pose proof Hsb as Hsb'.
      apply time_sorted_cons in Hsa' as [Hxa Hsa'], Hsb' as [Hyb Hsb'].
      destruct (Z.eqb_spec (tx_time x) (tx_time y)) as [Ht|Ht].
      + assert (x = y) as <-.
        { apply Hid; [|apply elem_of_app; right; apply HB; by left|done]. apply elem_of_app; left; apply HA; by left. }
        assert (x ∈ A) as HxA by (apply HA; by left). assert (x ∈ B) as HxB by (apply HB; by left).
        assert (D !! tx_uuid x = None) as HDx.
        { destruct (D !! tx_uuid x) as [d|] eqn:E; [exfalso|done].
          apply HD in E as (Hd & Hdk & Hdu & He). specialize (He x (or_introl (elem_of_list_here _ _))).
          destruct Hd as [Hd|Hd]; [by apply (HcfA d x)|by apply (HcfB d x)]. }
        cbv zeta.
        assert (∀ z, z ∈ a ∨ z ∈ b → tx_kind x = "del" → tx_uuid z ≠ tx_uuid x) as Hnot.
        { intros z [Hz|Hz] Hk Hu.
          - apply (HcfA x z); auto. apply HA. by right.
          - apply (HcfB x z); auto. apply HB. by right. }
        simpl scan. rewrite HDx.
        destruct (String.eqb_spec (tx_kind x) TxDelete) as [Hk|Hk]; simpl.
        * rewrite Hres by done.
          specialize (IH1 (S i) (S j) (mk_mstate (ms_c s ++ [x]) (<[tx_uuid x:=i]> (ms_deleted s)) (ms_conf s)) (<[tx_uuid x := x]> D)).
          rewrite conf_start_later in IH1 by lia. simpl in IH1.
          destruct (scan res (union_log a b) (<[tx_uuid x:=x]> D) (ms_conf s)) as [[k cf]|] eqn:Es; simpl in IH1 |- *.
          -- destruct IH1 as (s' & ? & Hc & ?); auto.
             { intros z Hz. apply HA. by right. } { intros z Hz. apply HB. by right. }
             { intros u d. destruct (decide (tx_uuid x = u)) as [<-|Hne].
               - rewrite lookup_insert. intros [= <-]. repeat split; auto. intros z [Hz|Hz]; auto.
               - rewrite lookup_insert_ne by done. intros (?&?&?&He)%HD. repeat split; auto.
                 intros z [Hz|Hz]; apply He; rewrite !elem_of_cons; auto. }
             { intros z Hz. destruct s as [c del cf0]. apply (agrees_grow c del cf0).
               - specialize (Hag z). rewrite !elem_of_cons in Hag. unfold agrees in *. simpl in *.
                 rewrite lookup_insert_ne by (apply not_eq_sym, Hnot; auto). apply Hag. destruct Hz; auto.
               - simpl. rewrite lookup_insert_ne by (apply not_eq_sym, Hnot; auto). done. }
             exists s'. rewrite Hc, <-app_assoc. done.
          -- apply IH1; auto.
             { intros z Hz. apply HA. by right. } { intros z Hz. apply HB. by right. }
             { intros u d. destruct (decide (tx_uuid x = u)) as [<-|Hne].
               - rewrite lookup_insert. intros [= <-]. repeat split; auto. intros z [Hz|Hz]; auto.
               - rewrite lookup_insert_ne by done. intros (?&?&?&He)%HD. repeat split; auto.
                 intros z [Hz|Hz]; apply He; rewrite !elem_of_cons; auto. }
             { intros z Hz. destruct s as [c del cf0]. apply (agrees_grow c del cf0).
               - specialize (Hag z). rewrite !elem_of_cons in Hag. unfold agrees in *. simpl in *.
                 rewrite lookup_insert_ne by (apply not_eq_sym, Hnot; auto). apply Hag. destruct Hz; auto.
               - simpl. rewrite lookup_insert_ne by (apply not_eq_sym, Hnot; auto). done. }
        * specialize (IH1 (S i) (S j) (mk_mstate (ms_c s ++ [x]) (ms_deleted s) (ms_conf s)) D).
          rewrite conf_start_later in IH1 by lia. simpl in IH1.
          assert (∀ z, z ∈ a ∨ z ∈ b → agrees (mk_mstate (ms_c s ++ [x]) (ms_deleted s) (ms_conf s)) D (tx_uuid z)) as Hag'.
          { intros z Hz. destruct s as [c del cf0]. apply (agrees_grow c del cf0); [|done].
            apply Hag. rewrite !elem_of_cons. destruct Hz; auto. }
          assert (∀ u d, D !! u = Some d → (d ∈ A ∨ d ∈ B) ∧ tx_kind d = "del" ∧ tx_uuid d = u ∧
              ∀ z, z ∈ a ∨ z ∈ b → earlier d z) as HD'.
          { intros u d (?&?&?&He)%HD. repeat split; auto. intros z Hz. apply He. rewrite !elem_of_cons. destruct Hz; auto. }
          destruct (scan res (union_log a b) D (ms_conf s)) as [[k cf]|] eqn:Es; simpl in IH1 |- *.
          -- destruct IH1 as (s' & ? & Hc & ?); auto.
             { intros z Hz. apply HA. by right. } { intros z Hz. apply HB. by right. }
             exists s'. rewrite Hc, <-app_assoc. done.
          -- apply IH1; auto.
             { intros z Hz. apply HA. by right. } { intros z Hz. apply HB. by right. }
      + cbv zeta. set (s0 := root_check res i j x y s).
        destruct (root_check_c res i j x y s) as [Hrc Hrd]. fold s0 in Hrc, Hrd.
        assert (∀ u, agrees s D u → agrees s0 D u) as Hs0.
        { intros u. unfold agrees. by rewrite Hrc, Hrd. }
        assert (∀ r o, simulated s0 r o → simulated s r o) as Hsim.
        { intros r o. unfold simulated. by rewrite Hrc. }
        apply Hsim.
        destruct (Z.ltb_spec (tx_time x) (tx_time y)) as [Hlt|Hge].
        * apply (push_check_sim res x s0 D (λ s', merge_loop res a (S i) (y :: b) j s')).
          { apply Hs0, Hag. left; by left. }
          intros s' D' keep Hall Hc HD'.
          specialize (IH2 (S i) j s' D'). rewrite conf_start_later in IH2 by lia. apply IH2; auto.
          { intros z Hz. apply HA. by right. }
          { intros u d Hud. assert (D !! u = Some d ∨ (tx_uuid x = u ∧ d = x ∧ tx_kind x = "del")) as [Hd|(<- & -> & Hk)].
            { destruct HD' as [->|[-> ?]]; [by left|]. destruct (decide (tx_uuid x = u)) as [<-|?].
              - rewrite lookup_insert in Hud. right. by simplify_eq.
              - rewrite lookup_insert_ne in Hud by done. by left. }
            - apply HD in Hd as (?&?&?&He). repeat split; auto. intros z [Hz|Hz]; apply He; [left; by right|by right].
            - repeat split; auto. { left. apply HA. by left. }
              intros z [Hz|[->|Hz]%elem_of_cons]; auto. specialize (Hyb _ Hz). unfold earlier in *; lia. }
          { intros z Hz. apply Hall, Hs0, Hag. destruct Hz as [Hz|Hz]; [left; by right|by right]. }
        * apply (push_check_sim res y s0 D (λ s', merge_loop res (x :: a) i b (S j) s')).
          { apply Hs0, Hag. right; by left. }
          intros s' D' keep Hall Hc HD'.
          specialize (IH3 i (S j) s' D'). rewrite conf_start_later in IH3 by lia. apply IH3; auto.
          { intros z Hz. apply HB. by right. }
          { intros u d Hud. assert (D !! u = Some d ∨ (tx_uuid y = u ∧ d = y ∧ tx_kind y = "del")) as [Hd|(<- & -> & Hk)].
            { destruct HD' as [->|[-> ?]]; [by left|]. destruct (decide (tx_uuid y = u)) as [<-|?].
              - rewrite lookup_insert in Hud. right. by simplify_eq.
              - rewrite lookup_insert_ne in Hud by done. by left. }
            - apply HD in Hd as (?&?&?&He). repeat split; auto. intros z [Hz|Hz]; apply He; [by left|right; by right].
            - repeat split; auto. { right. apply HB. by left. }
              intros z [[->|Hz]%elem_of_cons|Hz]; auto; [unfold earlier; lia|].
              specialize (Hxa _ Hz). unfold earlier in *; lia. }
          { intros z Hz. apply Hall, Hs0, Hag. destruct Hz as [Hz|Hz]; [by left|right; by right]. }
  Qed.
End sim.

(** ** Merge in terms of scan *)
Definition root_conf (res : list conflict) (a b : list tx) : list conflict :=
  match a, b with
  | x :: _, y :: _ =>
      if (tx_time x =? tx_time y)%Z then []
      else match res with
           | r :: _ => match cf_res r with resolveForce => [] | _ => [mk_conflict ConflictKindRoot x y resolveNone] end
           | [] => [mk_conflict ConflictKindRoot x y resolveNone]
           end
  | _, _ => []
  end.

Definition mresult_of (r : option (list tx * list conflict)) : outcome mresult :=
  match r with
  | None => Panic
  | Some (k, []) => Ok (Merged k)
  | Some (_, cs) => Ok (Conflicts cs)
  end.

Lemma TxMerge_scan a b res :
  valid_log a → valid_log b → compatible a b → ¬ look_alike a b → ¬ (a = [] ∧ b = []) →
  (∀ r, r ∈ res → cf_res r ≠ resolveNone) →
  (∀ x, x ∈ a → x ∈ b → tx_kind x = "del" → res_discard_initial res (tx_time x) = false) →
  TxMerge a b res = mresult_of (scan res (union_log a b) ∅ (root_conf res a b)).
Proof.
  intros Ha Hb Hc Hl Hne Hres Hdi. unfold TxMerge.
  destruct (existsb _ res) eqn:Ee.
  { apply existsb_exists in Ee as (r & Hr & Hn). apply elem_of_list_In in Hr. apply Hres in Hr. by destruct (cf_res r). }
  destruct (merge_fast_cases a b) as [(_ & -> & ->)|[(_ & ?)|(-> & _)]]; [exfalso; by apply Hne|done|].
  pose proof (merge_loop_sim a b res) as Hsim.
  specialize (Hsim (valid_conflict_free _ Ha (compatible_sub_l _ _ Hc)) (valid_conflict_free _ Hb (compatible_sub_r _ _ Hc))
    (proj1 Hc) Hdi a b 0%nat 0%nat (mk_mstate [] ∅ []) ∅).
  replace (conf_start res 0 0 a b (mk_mstate [] ∅ [])) with (root_conf res a b) in Hsim.
  2: { unfold conf_start, root_conf, root_check. destruct a, b; try done. simpl. repeat case_match; done. }
  destruct (scan res (union_log a b) ∅ (root_conf res a b)) as [[k cf]|]; simpl in Hsim.
  - destruct Hsim as (s' & -> & Hk & Hcf); try done; try apply Ha; try apply Hb; simpl in Hk.
    simpl. rewrite Hcf, Hk. by destruct cf.
  - rewrite Hsim; try done; try apply Ha; try apply Hb.
Qed.

(** ** What scanning finds *)
Lemma exists_min (P : tx → Prop) `{!∀ x, Decision (P x)} (l : list tx) (x : tx) :
  x ∈ l → P x → ∃ y, y ∈ l ∧ P y ∧ ∀ z, z ∈ l → P z → (tx_time y ≤ tx_time z)%Z.
Proof.
  revert x. induction l as [|h l IH]; intros x Hx HP; [by apply elem_of_nil in Hx|].
  destruct (decide (Exists P l)) as [He|He].
  - rewrite Exists_exists in He. destruct He as (w & Hw & HPw).
    destruct (IH w Hw HPw) as (y & Hy & HPy & Hmin).
    destruct (decide (P h ∧ (tx_time h < tx_time y)%Z)) as [[Hh Hlt]|Hn].
    + exists h. split; [by left|]. split; [done|]. intros z [->|Hz]%elem_of_cons HPz; [lia|].
      specialize (Hmin z Hz HPz). lia.
    + exists y. split; [by right|]. split; [done|]. intros z [->|Hz]%elem_of_cons HPz; [|by apply Hmin].
      destruct (Z.lt_ge_cases (tx_time h) (tx_time y)); [|done]. exfalso; by apply Hn.
  - exists x. apply elem_of_cons in Hx as [->|Hx].
    + split; [by left|]. split; [done|]. intros z [->|Hz]%elem_of_cons HPz; [lia|].
      exfalso. apply He, Exists_exists. by exists z.
    + exfalso. apply He, Exists_exists. by exists x.
Qed.

Lemma exists_first_delete l d : d ∈ l → tx_kind d = "del" → ∃ d', first_delete l d' ∧ tx_uuid d' = tx_uuid d.
Proof.
  intros Hd Hk. destruct (exists_min (λ y, tx_kind y = "del" ∧ tx_uuid y = tx_uuid d) l d Hd (conj Hk eq_refl))
    as (d' & ? & [? ?] & Hmin).
  exists d'. split; [|done]. split; [done|]. split; [done|]. intros. apply Hmin; [done|]. split; [done|congruence].
Qed.

Lemma exists_first_edit c d x :
  first_delete c d → x ∈ c → tx_uuid x = tx_uuid d → earlier d x → ∃ y, edit_after_delete c d y.
Proof.
  intros Hd Hx Hu He.
  assert (∀ y, Decision (tx_uuid y = tx_uuid d ∧ earlier d y)) by (intros; unfold earlier; apply _).
  destruct (exists_min (λ y, tx_uuid y = tx_uuid d ∧ earlier d y) c x Hx (conj Hu He)) as (y & ? & [? ?] & Hmin).
  exists y. repeat split; auto; try apply Hd.
Qed.

Lemma edit_after_delete_det c d x y : time_ids c → edit_after_delete c d x → edit_after_delete c d y → x = y.
Proof.
  intros Hid (_ & Hx & Hux & Hex & Hmx) (_ & Hy & Huy & Hey & Hmy).
  apply Hid; auto. specialize (Hmx y Hy Huy Hey). specialize (Hmy x Hx Hux Hex). lia.
Qed.

Lemma first_delete_det c d d' : time_ids c → first_delete c d → first_delete c d' → tx_uuid d = tx_uuid d' → d = d'.
Proof.
  intros Hid (Hd & Hk & Hm) (Hd' & Hk' & Hm') Hu. apply Hid; auto.
  specialize (Hm d' Hd' Hk' (eq_sym Hu)). specialize (Hm' d Hd Hk Hu). lia.
Qed.

Lemma first_delete_snoc p x d : time_sorted (p ++ [x]) →
  first_delete (p ++ [x]) d ↔
  first_delete p d ∨ (d = x ∧ tx_kind x = "del" ∧ ∀ d', d' ∈ p → tx_kind d' = "del" → tx_uuid d' ≠ tx_uuid x).
Proof.
  intros Hs. apply time_sorted_app in Hs as (_ & _ & He). unfold first_delete. split.
  - intros (Hd & Hk & Hm). apply elem_of_app in Hd as [Hd| ->%elem_of_list_singleton].
    + left. repeat split; auto. intros. apply Hm; auto. apply elem_of_app; by left.
    + right. repeat split; auto. intros d' Hd' Hk' Hu'.
      specialize (Hm d' (proj2 (elem_of_app _ _ _) (or_introl Hd')) Hk' Hu').
      specialize (He d' x Hd' (elem_of_list_here _ _)). unfold earlier in He. lia.
  - intros [(Hd & Hk & Hm)|(-> & Hk & Hn)].
    + repeat split; auto. { apply elem_of_app; by left. }
      intros d' [Hd'| ->%elem_of_list_singleton]%elem_of_app Hk' Hu'; [by apply Hm|].
      specialize (He d x Hd (elem_of_list_here _ _)). unfold earlier in He. lia.
    + repeat split; auto. { apply elem_of_app; right; by left. }
      intros d' [Hd'| ->%elem_of_list_singleton]%elem_of_app Hk' Hu'; [|lia].
      exfalso. by apply (Hn d').
Qed.

(** [D] records the first deletes of [p]. *)
Definition Dinv (p : list tx) (D : gmap string tx) : Prop :=
  ∀ u d, D !! u = Some d ↔ first_delete p d ∧ tx_uuid d = u.

Lemma Dinv_nil : Dinv [] ∅.
Proof. intros u d. rewrite lookup_empty. split; [done|]. intros [[Hd _] _]. by apply elem_of_nil in Hd. Qed.

Lemma Dinv_None p D u : Dinv p D → D !! u = None → ∀ d, d ∈ p → tx_kind d = "del" → tx_uuid d ≠ u.
Proof.
  intros HD Hu d Hd Hk Hdu. destruct (exists_first_delete p d Hd Hk) as (d' & Hf & Hu').
  assert (D !! u = Some d') by (apply HD; split; [done|congruence]). congruence.
Qed.

Lemma Dinv_keep p D x : time_sorted (p ++ [x]) → Dinv p D →
  (tx_kind x ≠ "del" ∨ D !! tx_uuid x ≠ None) → Dinv (p ++ [x]) D.
Proof.
  intros Hs HD Hor u d. rewrite (HD u d), first_delete_snoc by done. split; [naive_solver|].
  intros [[Hd|(-> & Hk & Hn)] Hu]; [done|]. destruct Hor as [?|Hsome]; [done|].
  destruct (D !! tx_uuid x) as [d'|] eqn:E; [|done]. apply HD in E as [(Hd' & Hk' & _) Hu']. exfalso. by apply (Hn d').
Qed.

Lemma Dinv_insert p D x : time_sorted (p ++ [x]) → Dinv p D → tx_kind x = "del" → D !! tx_uuid x = None →
  Dinv (p ++ [x]) (<[tx_uuid x := x]> D).
Proof.
  intros Hs HD Hk Hnone u d. rewrite first_delete_snoc by done.
  pose proof (Dinv_None p D _ HD Hnone) as Hn.
  destruct (decide (tx_uuid x = u)) as [<-|Hne].
  - rewrite lookup_insert. split.
    + intros [= <-]. split; [|done]. right. repeat split; auto.
    + intros [[(Hd & Hdk & _)|(-> & _)] Hu]; [exfalso; by apply (Hn d)|done].
  - rewrite lookup_insert_ne, (HD u d) by done. split; [naive_solver|].
    intros [[Hd|(-> & _)] Hu]; [done|by subst].
Qed.

Lemma sorted_prefix p x l : time_sorted (p ++ x :: l) → time_sorted (p ++ [x]).
Proof. intros H. rewrite (cons_middle x p l) in H. rewrite app_assoc in H. by apply time_sorted_app in H as (? & _ & _). Qed.

Lemma first_delete_prefix p l d : time_sorted (p ++ l) → first_delete p d → first_delete (p ++ l) d.
Proof.
  intros Hs (Hd & Hk & Hm). apply time_sorted_app in Hs as (_ & _ & He).
  repeat split; auto. { apply elem_of_app; by left. }
  intros d' [Hd'|Hd']%elem_of_app Hk' Hu'; [by apply Hm|]. specialize (He d d' Hd Hd'). unfold earlier in He. lia.
Qed.

Lemma edit_snoc p x d y : time_sorted (p ++ [x]) →
  edit_after_delete (p ++ [x]) d y ↔
  edit_after_delete p d y ∨
  (y = x ∧ first_delete p d ∧ tx_uuid x = tx_uuid d ∧ ∀ z, ¬ edit_after_delete p d z).
Proof.
  intros Hs. pose proof Hs as Hs'. apply time_sorted_app in Hs' as (_ & _ & He).
  assert (He' : ∀ z, z ∈ p → earlier z x) by (intros z Hz; apply He; [done|by left]). clear He.
  split.
  - intros (Hd & Hy & Hu & Hdy & Hm).
    assert (first_delete p d) as Hdp.
    { apply first_delete_snoc in Hd as [?|(-> & _)]; [done| |done]. exfalso.
      apply elem_of_app in Hy as [Hy| ->%elem_of_list_singleton]; [specialize (He' y Hy)|]; unfold earlier in *; lia. }
    apply elem_of_app in Hy as [Hy| ->%elem_of_list_singleton].
    + left. repeat split; auto; try apply Hdp. intros. apply Hm; auto. apply elem_of_app; by left.
    + right. repeat split; auto; try apply Hdp. intros z (_ & Hz & Huz & Hez & _).
      specialize (Hm z (proj2 (elem_of_app _ _ _) (or_introl Hz)) Huz Hez). specialize (He' z Hz). unfold earlier in He'. lia.
  - intros [(Hd & Hy & Hu & Hdy & Hm)|(-> & Hd & Hu & Hn)].
    + pose proof (first_delete_prefix p [x] d Hs Hd) as Hd'.
      split; [done|]. split; [apply elem_of_app; by left|]. repeat split; auto.
      intros z [Hz| ->%elem_of_list_singleton]%elem_of_app Huz Hez; [by apply Hm|].
      specialize (He' y Hy). unfold earlier in He'. lia.
    + pose proof (first_delete_prefix p [x] d Hs Hd) as Hd'.
      split; [done|]. split; [apply elem_of_app; right; by left|]. split; [done|].
      split; [apply He', Hd|].
      intros z [Hz| ->%elem_of_list_singleton]%elem_of_app Huz Hez; [|lia].
      exfalso. destruct (exists_first_edit p d z Hd Hz Huz Hez) as [w Hw]. by apply (Hn w).
Qed.

Lemma conf_noted_spec conf t : conf_noted conf t = true ↔ ∃ k, k ∈ conf ∧ tx_time (cf_initial k) = t.
Proof.
  unfold conf_noted. rewrite existsb_exists. split.
  - intros (k & Hk & Ht). exists k. rewrite elem_of_list_In. split; [done|lia].
  - intros (k & Hk & Ht). exists k. rewrite <-elem_of_list_In. split; [done|lia].
Qed.

Definition ds_conf (d x : tx) : conflict := mk_conflict ConflictKindDeleteSet d x resolveNone.

Lemma scan_nil l : ∀ p D conf0 conf,
  time_sorted (p ++ l) → Dinv p D →
  (∀ k, k ∈ conf ↔ ∃ d x, edit_after_delete p d x ∧ k = ds_conf d x) →
  NoDup (cf_initial <$> conf) →
  (∀ k d, k ∈ conf0 → d ∈ p ++ l → tx_kind d = "del" → tx_time (cf_initial k) ≠ tx_time d) →
  ∃ conf', scan [] l D (conf0 ++ conf) = Some (l, conf0 ++ conf') ∧
    (∀ k, k ∈ conf' ↔ ∃ d x, edit_after_delete (p ++ l) d x ∧ k = ds_conf d x) ∧
    NoDup (cf_initial <$> conf').
Proof.
  induction l as [|x l IH]; intros p D conf0 conf Hs HD Hconf Hnd H0.
  - exists conf. rewrite app_nil_r. done.
  - pose proof (sorted_prefix _ _ _ Hs) as Hsp.
    rewrite (cons_middle x p l), app_assoc in Hs, H0 |- *.
    simpl scan.
    assert (∀ d z, edit_after_delete (p ++ [x]) d z → tx_uuid d = tx_uuid x → D !! tx_uuid x = None → False) as Hnoconf.
    { intros d z Hed Hu Hnone. pose proof (Dinv_None p D _ HD Hnone) as Hn.
      apply edit_snoc in Hed as [((Hd & Hk & _) & _)|(_ & (Hd & Hk & _) & _)]; [| |done]; by apply (Hn d). }
    destruct (D !! tx_uuid x) as [d|] eqn:Ed.
    + assert (Dinv (p ++ [x]) D) as HD' by (apply Dinv_keep; auto; right; by rewrite Ed).
      apply HD in Ed as [Hfd Hud].
      destruct (conf_noted (conf0 ++ conf) (tx_time d)) eqn:En.
      * destruct (IH (p ++ [x]) D conf0 conf Hs HD') as (conf' & Hscan & Hc'); auto.
        { intros k. rewrite Hconf. apply conf_noted_spec in En as (k0 & Hk0 & Ht0).
          apply elem_of_app in Hk0 as [Hk0|Hk0].
          { exfalso. apply (H0 k0 d); auto; [|apply Hfd]. apply elem_of_app; left. apply elem_of_app; left. apply Hfd. }
          apply Hconf in Hk0 as (d0 & x0 & Hed0 & ->). simpl in Ht0.
          assert (d0 = d) as ->.
          { apply (time_sorted_ids p); auto; [by apply time_sorted_app in Hsp as [? _]|apply Hed0|apply Hfd]. }
          split; intros (d1 & x1 & Hed1 & ->).
          - exists d1, x1. split; [|done]. apply edit_snoc; auto.
          - exists d1, x1. split; [|done]. apply edit_snoc in Hed1 as [?|(-> & Hd1 & Hu1 & Hn1)]; auto.
            assert (d1 = d) as ->.
            { apply (first_delete_det p); auto; [apply time_sorted_ids; by apply time_sorted_app in Hsp as [? _]|congruence]. }
            exfalso. by apply (Hn1 x0). }
        exists conf'. rewrite Hscan. done.
      * rewrite <-app_assoc.
        destruct (IH (p ++ [x]) D conf0 (conf ++ [ds_conf d x]) Hs HD') as (conf' & Hscan & Hc'); auto.
        { intros k. rewrite elem_of_app, elem_of_list_singleton, Hconf. 
          assert (∀ z, ¬ edit_after_delete p d z) as Hnz.
          { intros z Hz. assert (conf_noted (conf0 ++ conf) (tx_time d) = true); [|congruence].
            apply conf_noted_spec. exists (ds_conf d z). split; [|done]. apply elem_of_app; right. apply Hconf. eauto. }
          split.
          - intros [(d1 & x1 & Hed1 & ->)| ->].
            + exists d1, x1. split; [|done]. apply edit_snoc; auto.
            + exists d, x. split; [|done]. apply edit_snoc; auto.
          - intros (d1 & x1 & Hed1 & ->). apply edit_snoc in Hed1 as [?|(-> & Hd1 & Hu1 & Hn1)]; eauto.
            right. assert (d1 = d) as ->; [|done].
            apply (first_delete_det p); auto; [apply time_sorted_ids; by apply time_sorted_app in Hsp as [? _]|congruence]. }
        { rewrite fmap_app. apply NoDup_app. split; [done|]. split; [|apply NoDup_singleton].
          intros z (k & -> & Hk)%elem_of_list_fmap Hz. simpl in Hz. apply elem_of_list_singleton in Hz.
          assert (conf_noted (conf0 ++ conf) (tx_time d) = true); [|congruence].
          apply conf_noted_spec. exists k. split; [apply elem_of_app; by right|congruence]. }
        exists conf'. unfold ds_conf in *. rewrite Hscan. done.
    + assert (∀ k, k ∈ conf ↔ ∃ d z, edit_after_delete (p ++ [x]) d z ∧ k = ds_conf d z) as Hconf'.
      { intros k. rewrite Hconf. split; intros (d1 & x1 & Hed1 & ->); exists d1, x1; (split; [|done]).
        - apply edit_snoc; auto.
        - pose proof Hed1 as Hed2. apply edit_snoc in Hed2 as [?|(-> & Hd1 & Hu1 & Hn1)]; auto.
          exfalso. by apply (Hnoconf d1 x). }
      destruct (String.eqb_spec (tx_kind x) TxDelete) as [Hk|Hk]; simpl.
      * destruct (IH (p ++ [x]) (<[tx_uuid x := x]> D) conf0 conf Hs) as (conf' & Hscan & Hc'); auto.
        { by apply Dinv_insert. }
        exists conf'. rewrite Hscan. done.
      * destruct (IH (p ++ [x]) D conf0 conf Hs) as (conf' & Hscan & Hc'); auto.
        { apply Dinv_keep; auto. }
        exists conf'. rewrite Hscan. done.
Qed.
