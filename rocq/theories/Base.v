(** Conventions shared by all model files.  No proofs here.

    Go [string] is modelled by Coq [string] (an arbitrary sequence of bytes),
    [map[string]T] by std++ [gmap string T], Go [int]/[int64] by [Z] or, where
    the value is a non-negative length or index, [nat]. *)
From stdpp Require Export base gmap strings list.
From stdpp Require Import options.
From Coq Require Export ZArith.

(** Errors.  [errors.New]/[fmt.Errorf] values are [EMsg] with the format
    string; the error types the code distinguishes have their own constructor. *)
Inductive error :=
| EMsg (msg : string)
| EKeyNotFound (uuid key index : string)  (* txlogs/errors.go:5-14 *)
| EUUIDNotFound (uuid : string)           (* txlogs/errors.go:41-42 *)
| ENameNotUnique                          (* blobformat/blobs.go:20 *)
| EInterrupt                              (* line_editing.go ErrInterrupt *)
| EEnd                                    (* line_editing.go ErrEnd / io.EOF *)
| EWrongPassphrase                        (* crypt/crypto.go:18 *)
| ENeedUser                               (* crypt/crypto.go:19 *)
| EUnknownUser                            (* crypt/crypto.go:20 *)
| EInvalidFileFormat                      (* crypt/crypto.go:21 *)
| ENotEnoughSpace                         (* passwd_gen.go errPasswordImpossible *)
.

(** Result of a Go function: a value, a returned [error], or a run-time panic
    (which nothing in the code base recovers from, so it ends the process). *)
Inductive outcome (A : Type) :=
| Ok (a : A)
| Fail (e : error)
| Panic.
Arguments Ok {_} _.
Arguments Fail {_} _.
Arguments Panic {_}.

#[global] Instance outcome_ret : MRet outcome := λ A a, Ok a.
#[global] Instance outcome_bind : MBind outcome := λ A B f x,
  match x with Ok a => f a | Fail e => Fail e | Panic => Panic end.
#[global] Instance outcome_fmap : FMap outcome := λ A B f x,
  match x with Ok a => Ok (f a) | Fail e => Fail e | Panic => Panic end.

Definition is_ok {A} (o : outcome A) : bool :=
  match o with Ok _ => true | _ => false end.
Definition is_panic {A} (o : outcome A) : bool :=
  match o with Panic => true | _ => false end.

(** Go slices that are resliced upwards: [vis] is the part below [len], [spare]
    the rest of the backing array (so [cap] is the sum of both lengths). *)
Record slice (A : Type) := mk_slice { vis : list A; spare : list A }.
Arguments mk_slice {_} _ _.
Arguments vis {_} _.
Arguments spare {_} _.

Definition slice_nil {A} : slice A := mk_slice [] [].
Definition slice_of {A} (l : list A) : slice A := mk_slice l [].

(** [append(s, x)]: overwrites the backing array if there is room, otherwise a
    new array is allocated whose extra room ([grow], chosen by the Go run-time)
    is zeroed. *)
Definition slice_append {A} (zero : A) (grow : nat) (s : slice A) (x : A) : slice A :=
  match spare s with
  | _ :: r => mk_slice (vis s ++ [x]) r
  | [] => mk_slice (vis s ++ [x]) (replicate grow zero)
  end.

(** [s[:n]]: allowed up to the capacity, a panic beyond. *)
Definition slice_upto {A} (s : slice A) (n : nat) : outcome (slice A) :=
  let all := vis s ++ spare s in
  if (n <=? length all)%nat then Ok (mk_slice (take n all) (drop n all)) else Panic.

#[global] Instance error_eq_dec : EqDecision error.
Proof. solve_decision. Defined.
#[global] Instance outcome_eq_dec {A} `{EqDecision A} : EqDecision (outcome A).
Proof. solve_decision. Defined.

#[global] Instance slice_eq_dec {A} `{EqDecision A} : EqDecision (slice A).
Proof. solve_decision. Defined.

(** The value of a computation known to succeed (used for witnesses). *)
Definition ok_or {A} (d : A) (o : outcome A) : A :=
  match o with Ok a => a | _ => d end.

(** Closes decidable goals about concrete values by computation. *)
Ltac compute_dec := apply (bool_decide_unpack _); vm_compute; exact I.
