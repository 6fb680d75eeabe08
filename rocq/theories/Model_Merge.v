(** Model of txlogs/txlogs.go:314-487 ([Merge]) and of the conflict type of
    txlogs/tx.go:32-76. *)
From Verif Require Export Model_TxLog.
From stdpp Require Import options.

(** txlogs/tx.go:33-40 *)
Inductive conflict_kind := ConflictKindDeleteSet | ConflictKindRoot.

(** txlogs/tx.go:43-48 *)
Inductive resolution := resolveNone | resolveDiscardInitial | resolveDiscardConflict | resolveForce.

#[global] Instance conflict_kind_eq_dec : EqDecision conflict_kind.
Proof. solve_decision. Defined.
#[global] Instance resolution_eq_dec : EqDecision resolution.
Proof. solve_decision. Defined.

(** txlogs/tx.go:50-59, [Conflict] *)
Record conflict := mk_conflict {
  cf_kind : conflict_kind;
  cf_initial : tx;
  cf_conflict : tx;
  cf_res : resolution;
}.

(** txlogs/tx.go:61-76 *)
Definition cf_set (r : resolution) (c : conflict) : conflict :=
  mk_conflict (cf_kind c) (cf_initial c) (cf_conflict c) r.
Definition DiscardConflict := cf_set resolveDiscardConflict.
Definition DiscardInitial := cf_set resolveDiscardInitial.
Definition Force := cf_set resolveForce.

(** The variables of [Merge] its loop and closure change: the output [c], the
    map [deleted] and the conflicts found so far. *)
Record mstate := mk_mstate {
  ms_c : list tx;
  ms_deleted : gmap string nat;
  ms_conf : list conflict;
}.

(** txlogs/txlogs.go:377-388: is the delete at hand, with time [t], to be
    dropped because of a resolution? *)
Fixpoint res_discard_initial (resolved : list conflict) (t : Z) : bool :=
  match resolved with
  | [] => false
  | r :: rs =>
      if (tx_time (cf_initial r) =? t)%Z then
        match cf_res r with
        | resolveDiscardInitial => true
        | _ => res_discard_initial rs t
        end
      else res_discard_initial rs t
  end.

(** txlogs/txlogs.go:398-409: the first resolution for a delete with time [t] *)
Fixpoint res_find (resolved : list conflict) (t : Z) : option resolution :=
  match resolved with
  | [] => None
  | r :: rs => if (tx_time (cf_initial r) =? t)%Z then Some (cf_res r) else res_find rs t
  end.

(** txlogs/txlogs.go:412-416 *)
Definition conf_noted (conf : list conflict) (t : Z) : bool :=
  existsb (λ c, (tx_time (cf_initial c) =? t)%Z) conf.

(** txlogs/txlogs.go:364-424, appending [x] to [c] followed by the closure
    [checkConflict].  [c] here is the list before [x] is appended, so
    [c[:last]] (dropping [x] again) is [c]. *)
Definition push_check (resolved : list conflict) (x : tx) (s : mstate) : outcome mstate :=
  let c := ms_c s in
  let c' := c ++ [x] in
  let last := length c in
  match ms_deleted s !! tx_uuid x with
  | None =>
      if negb (String.eqb (tx_kind x) TxDelete) then
        Ok (mk_mstate c' (ms_deleted s) (ms_conf s))
      else if res_discard_initial resolved (tx_time x) then
        Ok (mk_mstate c (ms_deleted s) (ms_conf s))
      else
        Ok (mk_mstate c' (<[tx_uuid x := last]> (ms_deleted s)) (ms_conf s))
  | Some ind =>
      match c' !! ind with
      | None => Panic (* index out of range *)
      | Some deleteTx =>
          match res_find resolved (tx_time deleteTx) with
          | Some resolveDiscardConflict => Ok (mk_mstate c (ms_deleted s) (ms_conf s))
          | Some _ => Panic (* "impossible situation" *)
          | None =>
              if conf_noted (ms_conf s) (tx_time deleteTx) then
                Ok (mk_mstate c' (ms_deleted s) (ms_conf s))
              else
                Ok (mk_mstate c' (ms_deleted s)
                      (ms_conf s ++ [mk_conflict ConflictKindDeleteSet deleteTx x resolveNone]))
          end
      end
  end.

(** txlogs/txlogs.go:472-480: the rest of either log *)
Fixpoint push_rest (resolved : list conflict) (l : list tx) (s : mstate) : outcome mstate :=
  match l with
  | [] => Ok s
  | x :: l' =>
      match push_check resolved x s with
      | Ok s' => push_rest resolved l' s'
      | Fail e => Fail e
      | Panic => Panic
      end
  end.

(** txlogs/txlogs.go:449-458: the root conflict *)
Definition root_check (resolved : list conflict) (i j : nat) (x y : tx) (s : mstate) : mstate :=
  if ((i =? 0) && (j =? 0))%nat then
    let forced := match resolved with
                  | r :: _ => match cf_res r with resolveForce => true | _ => false end
                  | [] => false
                  end in
    if forced then s
    else mk_mstate (ms_c s) (ms_deleted s)
           (ms_conf s ++ [mk_conflict ConflictKindRoot x y resolveNone])
  else s.

(** txlogs/txlogs.go:426-480: the main loop; [a] and [b] are what is left from
    positions [i] and [j] on. *)
Fixpoint merge_loop (resolved : list conflict) (a : list tx) (i : nat) : list tx → nat → mstate → outcome mstate :=
  match a with
  | [] => λ b j s, push_rest resolved b s
  | x :: a' =>
      let merge_b := fix merge_b (b : list tx) (j : nat) (s : mstate) {struct b} : outcome mstate :=
        match b with
        | [] => push_rest resolved (x :: a') s
        | y :: b' =>
            if (tx_time x =? tx_time y)%Z then
              let del := if String.eqb (tx_kind x) TxDelete
                         then <[tx_uuid x := i]> (ms_deleted s) else ms_deleted s in
              merge_loop resolved a' (S i) b' (S j) (mk_mstate (ms_c s ++ [x]) del (ms_conf s))
            else
              let s := root_check resolved i j x y s in
              if (tx_time x <? tx_time y)%Z then
                match push_check resolved x s with
                | Ok s' => merge_loop resolved a' (S i) (y :: b') j s'
                | Fail e => Fail e
                | Panic => Panic
                end
              else
                match push_check resolved y s with
                | Ok s' => merge_b b' (S j) s'
                | Fail e => Fail e
                | Panic => Panic
                end
        end in merge_b
  end.

(** txlogs/txlogs.go:336-347: the no-fork fast path; indexing an empty log
    panics. *)
Definition merge_fast (a b : list tx) : outcome bool :=
  if (length a =? length b)%nat then
    match a, b with
    | x :: _, y :: _ =>
        if (tx_time x =? tx_time y)%Z then
          match last a, last b with
          | Some x', Some y' => Ok (tx_time x' =? tx_time y')%Z
          | _, _ => Panic
          end
        else Ok false
    | _, _ => Panic
    end
  else Ok false.

(** What [Merge] returns: a log, or (a nil log and) conflicts. *)
Inductive mresult := Merged (c : list tx) | Conflicts (cs : list conflict).

(** txlogs/txlogs.go:329-487, [Merge] *)
Definition TxMerge (a b : list tx) (resolved : list conflict) : outcome mresult :=
  if existsb (λ r, match cf_res r with resolveNone => true | _ => false end) resolved
  then Ok (Conflicts resolved)
  else
    match merge_fast a b with
    | Panic => Panic
    | Fail e => Fail e
    | Ok true => Ok (Merged a)
    | Ok false =>
        match merge_loop resolved a 0 b 0 (mk_mstate [] ∅ []) with
        | Ok s => match ms_conf s with
                  | [] => Ok (Merged (ms_c s))
                  | cs => Ok (Conflicts cs)
                  end
        | Fail e => Fail e
        | Panic => Panic
        end
    end.
