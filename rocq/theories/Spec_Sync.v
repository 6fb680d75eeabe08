(** What syncing should do, said remote by remote. *)
From Verif Require Export Model_Sync Spec_Session Spec_Hosts.
From stdpp Require Import options.
Import Model_GoStr.
#[local] Open Scope nat_scope.

(** Two logs that look alike: as long, beginning and ending at the same times *)
Definition alike (a b : list tx) : Prop :=
  length a = length b ∧ tx_time <$> head a = tx_time <$> head b ∧ tx_time <$> last a = tx_time <$> last b.

(** What became of a remote: there is no file yet, it was opened, or it is left
    alone *)
Inductive fate := Missing | Opened (p : part) | LeftAlone.

(** For session [s], the [i]-th remote [u] with input [inp]: the line for a new
    host, its fate and the input left *)
Inductive remote_is (P : prims) (w : sync_world) (s : session) (i : nat) (u : string) (inp : list input) : string → fate → list input → Prop :=
| is_missing host rest :
    pullBlob w i (entry_at s u) inp = UOk (host, NotFound) rest →
    remote_is P w s i u inp host Missing rest
| is_unreachable host e rest :
    pullBlob w i (entry_at s u) inp = UOk (host, NotPulled e) rest →
    remote_is P w s i u inp host LeftAlone rest
| is_locked host ct inp1 rest :
    pullBlob w i (entry_at s u) inp = UOk (host, Pulled ct) inp1 →
    decryptBlob P (s_key s) (s_salt s) ct (s_user s) (s_pass s) inp1 = UOk None rest →
    remote_is P w s i u inp host LeftAlone rest
| is_garbage host ct inp1 params user pass pt rest :
    pullBlob w i (entry_at s u) inp = UOk (host, Pulled ct) inp1 →
    decryptBlob P (s_key s) (s_salt s) ct (s_user s) (s_pass s) inp1 = UOk (Some (params, user, pass, pt)) rest →
    pt = [] ∨ (∃ e, NewLog pt = Fail e) →
    remote_is P w s i u inp host LeftAlone rest
| is_alike host ct inp1 params user pass pt log rest :
    pullBlob w i (entry_at s u) inp = UOk (host, Pulled ct) inp1 →
    decryptBlob P (s_key s) (s_salt s) ct (s_user s) (s_pass s) inp1 = UOk (Some (params, user, pass, pt)) rest →
    pt ≠ [] → NewLog pt = Ok log → alike (vis log) (vis (db_log (s_db s))) →
    remote_is P w s i u inp host LeftAlone rest
| is_opened host ct inp1 params user pass pt log rest :
    pullBlob w i (entry_at s u) inp = UOk (host, Pulled ct) inp1 →
    decryptBlob P (s_key s) (s_salt s) ct (s_user s) (s_pass s) inp1 = UOk (Some (params, user, pass, pt)) rest →
    pt ≠ [] → NewLog pt = Ok log → ¬ alike (vis log) (vis (db_log (s_db s))) →
    remote_is P w s i u inp host (Opened (mk_part user pass params (vis log))) rest.

(** The remotes one after the other *)
Inductive pulls (P : prims) (w : sync_world) (s : session) : nat → list string → list input → list (string * fate) → list input → Prop :=
| pulls_nil i inp : pulls P w s i [] inp [] inp
| pulls_cons i u us inp host f inp1 rs rest :
    remote_is P w s i u inp host f inp1 → pulls P w s (S i) us inp1 rs rest →
    pulls P w s i (u :: us) inp ((host, f) :: rs) rest.

(** The remotes that get the file, and the logs that are merged, in order *)
Fixpoint receivers (us : list string) (rs : list (string * fate)) : list string :=
  match us, rs with
  | u :: us, (_, LeftAlone) :: rs => receivers us rs
  | u :: us, _ :: rs => u :: receivers us rs
  | _, _ => []
  end.
Definition opened_parts (rs : list (string * fate)) : list part :=
  omap (λ '(_, f), match f with Opened p => Some p | _ => None end) rs.
(** The lines for hosts the user accepted *)
Fixpoint new_hosts (us : list string) (rs : list (string * fate)) : gmap string string :=
  match us, rs with
  | u :: us, (host, _) :: rs => note_host u host (new_hosts us rs)
  | _, _ => ∅
  end.

(** The remotes a sync is about: all entries marked for it, or the one named *)
Definition marked (w : sync_world) (b : entry) : Prop :=
  b !! "sync" = Some "true" ∧ (∃ n, b !! "name" = Some n ∧ n ≠ "") ∧
  ∃ url sch, b !! "url" = Some url ∧ url ≠ "" ∧ y_scheme w url = Some sch ∧ (sch = "scp" ∨ sch = "file").
Definition about_remotes (w : sync_world) (name : string) (m : snapshot) (us : list string) : Prop :=
  if decide (name = "") then NoDup us ∧ ∀ u, u ∈ us ↔ ∃ b, m !! u = Some b ∧ marked w b
  else ∃ u, us = [u] ∧ called m u name ∧ u ≠ "".

(** Session [s] with its snapshot brought up to date, as a sync begins *)
Definition caught_up (s : session) : session := set_db (fst (UpdateSnapshot (s_db s))) s.
(** Nothing of the session is different but the snapshot *)
Definition same_session (s s' : session) : Prop :=
  s_created s' = s_created s ∧ s_readOnly s' = s_readOnly s ∧ s_startTx s' = s_startTx s ∧
  s_user s' = s_user s ∧ s_pass s' = s_pass s ∧ s_key s' = s_key s ∧ s_salt s' = s_salt s ∧
  s_master s' = s_master s ∧ s_ivm s' = s_ivm s ∧
  db_log (s_db s') = db_log (s_db s) ∧ db_txpoint (s_db s') = db_txpoint (s_db s).

(** Session [s'] has the credentials and the log that merging gave, with
    transactions [txs] after it. *)
Definition has_merged (mr : merge_result) (txs : list tx) (s s' : session) : Prop :=
  s_user s' = m_user mr ∧ s_pass s' = m_pass mr ∧ s_key s' = m_key mr ∧ s_salt s' = m_salt mr ∧
  s_master s' = m_master mr ∧ s_ivm s' = m_ivm mr ∧
  vis (db_log (s_db s')) = m_log mr ++ txs ∧
  s_created s' = s_created s ∧ s_readOnly s' = s_readOnly s ∧ s_startTx s' = s_startTx s ∧
  db_txpoint (s_db s') = db_txpoint (s_db s).
(** Transactions that only remember hosts *)
Definition host_txs (hosts : gmap string string) (txs : list tx) : Prop :=
  ∀ t, t ∈ txs → tx_kind t = "setk" ∧ tx_key t = "knownhosts" ∧ is_Some (hosts !! tx_uuid t).

(** A fair order for ranging over the hosts *)
Definition fair_hosts (w : sync_world) : Prop := ∀ k m, y_hosts w k m ≡ₚ map_to_list m.

(** The names of users in a log *)
Definition has_users (log : list tx) : Prop := ∃ m u x, replays log m ∧ called m u ("user/" +:+ x).

(** Session [s2] is [s] after merging, with [hosts] remembered, and holds [m2]. *)
Definition after_merge (s : session) (mr : merge_result) (hosts : gmap string string) (s2 : session) (m2 : snapshot) : Prop :=
  ∃ txs, has_merged mr txs s s2 ∧ host_txs hosts txs ∧ holds (s_db s2) m2 ∧ snap_of (s_db s2) = m2.
(** All of [ps] is file [ct], each put where its entry in [m2] says *)
Definition one_file (ct : bytes) (m2 : snapshot) (ps : list push) : Prop :=
  ∀ p, p ∈ ps → p_file p = ct ∧ p_url p = default "" (m2 !! p_uuid p ≫= λ b, b !! "url").
(** [ct] is the file that saving [s2] would write. *)
Definition file_of (P : prims) (w : sync_world) (s2 : session) (ct : bytes) : Prop :=
  s_readOnly s2 = false → ∃ s3, saveBlob P (y_env w 3) (y_ord w) (y_iv w) s2 = (s3, Ok (Some ct)).

(** Logs merged one after the other *)
Inductive merged_one_by_one : list tx → list part → list tx → Prop :=
| merged_none l : merged_one_by_one l [] l
| merged_more l p ps inp rest l1 l' : mergeLogs l (b_log p) inp = UOk l1 rest → merged_one_by_one l1 ps l' → merged_one_by_one l (p :: ps) l'.
(** The credentials of [mr] are those of the session, or those of a remote *)
Definition creds_of_session (s : session) (mr : merge_result) : Prop :=
  m_user mr = s_user s ∧ m_pass mr = s_pass s ∧ m_key mr = s_key s ∧ m_salt mr = s_salt s ∧ m_master mr = s_master s ∧ m_ivm mr = s_ivm s.
Definition creds_of_part (p : part) (mr : merge_result) : Prop :=
  m_user mr = b_user p ∧ m_pass mr = b_pass p ∧ Keys (b_params p) !! Z.to_nat (User (b_params p)) = Some (m_key mr) ∧
  Salts (b_params p) !! Z.to_nat (User (b_params p)) = Some (m_salt mr) ∧
  m_master mr = nil_bytes (Master (b_params p)) ∧ m_ivm mr = nil_bytes (IVM (b_params p)).
(** The remote is for a single user, and has this key *)
Definition single_part (key : bytes) (p : part) : Prop :=
  Keys (b_params p) !! Z.to_nat (User (b_params p)) = Some key ∧ nil_bytes (Master (b_params p)) = [].
