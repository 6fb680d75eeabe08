(** Runs of the program on a file with several users. *)
From Verif Require Export Spec_Multi Spec_Cli.
From stdpp Require Import options.
#[local] Open Scope nat_scope.

(** The file is one saved by the session [s], whose store holds [m] and has users. *)
Definition users_file (o : outside) (s : session) (m : snapshot) : Prop :=
  serves (o_P o) s m ∧ s_readOnly s = false ∧
  ∃ e ord riv sa fl sp, fair e ∧ fair_results ord ∧ length riv = 40 ∧
    saveBlob (o_P o) e ord (Some riv) s = (sa, Ok (Some fl)) ∧ o_disk o = Found (mk_slice fl sp).

(** Ranging visits everything once and there is randomness for the file. *)
Definition can_save (o : outside) : Prop :=
  fair (o_env o) ∧ fair_results (o_ord o) ∧ ∃ b, o_riv o = Some b ∧ length b = 40.

(** [fl] opens for everyone who could open the file of [s] before, with the store [d]. *)
Definition opens_for_all (P : prims) (s : session) (m m' : snapshot) (d : db) (fl : bytes) : Prop :=
  ∀ y pass, unlocks P m (s_master s) y pass → ∀ sp rsalt r, ∃ s2,
    loadBlob P (Found (mk_slice fl sp)) None rsalt (ILine y :: ILine pass :: r) = UOk s2 r ∧
    same_store d (s_db s2) ∧ serves P s2 m' ∧ s_user s2 = y.
