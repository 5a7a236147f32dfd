(** * Go runtime basics: results, errors, machine integers *)
From stdpp Require Import base gmap strings list.
From Coq Require Import ZArith Lia Ascii String.
Open Scope Z_scope.

(** ** Errors.  Models metadata/errors.go:22-170 (one constructor per error type of the library), plus
    [EOther] for errors made by [errors.New]/[fmt.Errorf] or returned by the standard library, and
    [EWrap] for an error that wraps another one ([json.MarshalerError] around a [MarshalJSON] error).
    Messages are kept where the code's behaviour depends on them ([errors.Is] compares whole structs,
    so an empty message matters); formatted details inside messages are dropped. *)
Inductive gerr :=
  | ErrRepository (msg : string)               (* errors.go:27-33 *)
  | ErrUnsignedMetadata (msg : string)         (* errors.go:36-47 *)
  | ErrBadVersionNumber (msg : string)         (* errors.go:50-61 *)
  | ErrEqualVersionNumber (msg : string)       (* errors.go:64-75 *)
  | ErrExpiredMetadata (msg : string)          (* errors.go:78-89 *)
  | ErrLengthOrHashMismatch (msg : string)     (* errors.go:92-103 *)
  | ErrDownload (msg : string)                 (* errors.go:108-114 *)
  | ErrDownloadLengthMismatch (msg : string)   (* errors.go:117-128 *)
  | ErrDownloadHTTP (status : Z) (url : string)(* errors.go:131-143 *)
  | ErrValue (msg : string)                    (* errors.go:146-152 *)
  | ErrType (msg : string)                     (* errors.go:155-161 *)
  | ErrRuntime (msg : string)                  (* errors.go:164-170 *)
  | EOther (msg : string)
  | EWrap (msg : string) (inner : gerr).

Global Instance gerr_eq_dec : EqDecision gerr.
Proof. solve_decision. Defined.

(** The [Is] methods of errors.go (:45, :59, :73, :87, :101, :126, :141). *)
Definition err_is_method (e target : gerr) : bool :=
  match e with
  | ErrUnsignedMetadata _ =>
      bool_decide (target = ErrRepository "") || bool_decide (target = ErrUnsignedMetadata "")
  | ErrBadVersionNumber _ =>
      bool_decide (target = ErrRepository "") || bool_decide (target = ErrBadVersionNumber "")
  | ErrEqualVersionNumber _ =>
      bool_decide (target = ErrRepository "") || bool_decide (target = ErrBadVersionNumber "")
      || bool_decide (target = ErrEqualVersionNumber "")
  | ErrExpiredMetadata _ =>
      bool_decide (target = ErrRepository "") || bool_decide (target = ErrExpiredMetadata "")
  | ErrLengthOrHashMismatch _ =>
      bool_decide (target = ErrRepository "") || bool_decide (target = ErrLengthOrHashMismatch "")
  | ErrDownloadLengthMismatch _ =>
      bool_decide (target = ErrDownload "") || bool_decide (target = ErrDownloadLengthMismatch "")
  | ErrDownloadHTTP _ _ =>
      bool_decide (target = ErrDownload "") || bool_decide (target = ErrDownloadHTTP 0 "")
  | _ => false
  end.

(** Go's [errors.Is]: equality, then the [Is] method, then unwrap. *)
Fixpoint errors_is (e target : gerr) : bool :=
  bool_decide (e = target) || err_is_method e target ||
  match e with EWrap _ i => errors_is i target | _ => false end.

(** ** Results of Go calls.  [Panic] is a run-time panic (nil dereference, failed type assertion, ...). *)
Inductive outcome (A : Type) :=
  | Ok (a : A)
  | Err (e : gerr)
  | Panic.
Arguments Ok {A} a.
Arguments Err {A} e.
Arguments Panic {A}.

Definition obind {A B} (o : outcome A) (f : A -> outcome B) : outcome B :=
  match o with Ok a => f a | Err e => Err e | Panic => Panic end.
Definition omap_ {A B} (f : A -> B) (o : outcome A) : outcome B :=
  match o with Ok a => Ok (f a) | Err e => Err e | Panic => Panic end.

Declare Scope outcome_scope.
Delimit Scope outcome_scope with oc.
Notation "'let!' x := o 'in' k" := (obind o (fun x => k))
  (at level 200, x name, o at level 100, k at level 200, right associativity).
Notation "'let!' ' p := o 'in' k" := (obind o (fun x => match x with p => k end))
  (at level 200, p strict pattern, o at level 100, k at level 200, right associativity).

Definition is_ok {A} (o : outcome A) : bool := match o with Ok _ => true | _ => false end.
Definition is_panic {A} (o : outcome A) : bool := match o with Panic => true | _ => false end.
Definition of_option {A} (e : gerr) (o : option A) : outcome A :=
  match o with Some a => Ok a | None => Err e end.

(** ** int64 arithmetic (two's complement wrap-around). *)
Definition two63 : Z := 9223372036854775808.
Definition two64 : Z := 18446744073709551616.
Definition wrap64 (z : Z) : Z := (z + two63) mod two64 - two63.
Definition in_int64 (z : Z) : bool := (- two63 <=? z) && (z <? two63).
Definition max_int64 : Z := 9223372036854775807.

Lemma wrap64_id z : in_int64 z = true -> wrap64 z = z.
Proof.
  unfold in_int64, wrap64, two63, two64. intros H.
  apply andb_prop in H as [H1 H2]. apply Z.leb_le in H1. apply Z.ltb_lt in H2.
  rewrite Z.mod_small; lia.
Qed.

(** ** Go's nil-able maps, slices and pointers: [None] is nil. *)
Notation gomap V := (option (gmap string V)).
Notation goslice A := (option (list A)).

(** [m[k]] on a possibly nil map: nil behaves as empty. *)
Definition mget {V} (m : gomap V) (k : string) : option V :=
  match m with Some m => m !! k | None => None end.
(** [m[k] = v]: assignment to a nil map panics. *)
Definition mset {V} (k : string) (v : V) (m : gomap V) : outcome (gomap V) :=
  match m with Some m => Ok (Some (<[k := v]> m)) | None => Panic end.
(** [delete(m, k)]: no-op on nil. *)
Definition mdel {V} (k : string) (m : gomap V) : gomap V :=
  match m with Some m => Some (delete k m) | None => None end.
(** iterating over a nil map or slice does nothing *)
Definition mlist {V} (m : gomap V) : list (string * V) :=
  match m with Some m => map_to_list m | None => [] end.
Definition mmap {V} (m : gomap V) : gmap string V := default ∅ m.
Definition slist {A} (l : goslice A) : list A := default [] l.

Definition str_len (s : string) : Z := Z.of_nat (String.length s).
