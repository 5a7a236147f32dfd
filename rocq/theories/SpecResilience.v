(** * Specification of compromise resilience (C95): attackers hold some keys, honest owners the others *)
From stdpp Require Import base gmap strings list.
From Coq Require Import ZArith String.
From Verif Require Import GoBase Types Marshal Keys Metadata TrustedMetadata Fetcher Updater SpecSig SpecTrusted SpecUpdater.
Open Scope Z_scope.

(** the bytes a call hands to the trusted set; calls on bytes out of [shown] *)
Definition call_data (c : call) : string :=
  match c with UpdateRoot data | UpdateTimestamp data | UpdateSnapshot _ data _ | UpdateDelegated data _ _ => data end.
Inductive calls_on {CR : Crypto} (shown : string -> Prop) : trusted -> trusted -> Prop :=
  | calls_on_nil t : calls_on shown t t
  | calls_on_step t t' c : calls_on shown t t' -> proper_call c -> shown (call_data c) -> calls_on shown t (fst (perform t' c)).
(** the client has downloaded these bytes, or read them from its cache *)
Definition received (tr : trace) (data : string) : Prop := (exists url len, EvGet url len (Ok data) ∈ tr) \/ exists p, EvRead p (Ok data) ∈ tr.
(** a session in which the client only ever receives bytes out of [shown] *)
Inductive shown_session {CR : Crypto} (shown : string -> Prop) (E : env) (c : config) (now : Z) : world -> Prop :=
  | shown_new i i' t : updater_new E c now i = (i', Ok t) -> shown_session shown E c now (mkWorld t i')
  | shown_api w a w' o : shown_session shown E c now w -> call_api E c a w = (w', o) -> (forall data, received (io_trace (w_io w')) data -> shown data) ->
      shown_session shown E c now w'
  | shown_files w i : shown_session shown E c now w -> shown_session shown E c now (mkWorld (w_trusted w) i).

Section Resilience.
(** [stolen pk]: attackers can sign with [pk]; [made pk p]: the owner of [pk] has signed the payload [p] *)
Context {CR : Crypto} (stolen : pubkey -> bool) (made : pubkey -> string -> Prop).

(** no signature that comes with [m] is forged: a valid one is the owner's, or the key is stolen.  (A missing signature
    is checked as the empty byte string.) *)
Definition unforged {D} `{RoleTy D} (m : metadata D) : Prop :=
  forall pk p sig, signing_payload (md_signed m) = Ok p -> sig = "" \/ (exists s, s ∈ default [] (md_sigs m) /\ sig_sig s = sig) ->
    raw_verify pk p sig = true -> stolen pk = true \/ made pk p.
(** fewer than [thr] of the listed key IDs stand for stolen keys *)
Definition few_stolen (keys : gomap (option key)) (ids : list string) (thr : Z) : Prop :=
  forall l, NoDup l -> (forall id, id ∈ l -> id ∈ ids /\ exists pk, resolves keys id pk /\ stolen pk = true) -> Z.of_nat (List.length l) < thr.
(** the owner of one of the listed keys, which is not stolen, has signed the content of [m] *)
Definition owner_signed {D} `{RoleTy D} (keys : gomap (option key)) (ids : list string) (m : metadata D) : Prop :=
  exists id pk p, id ∈ ids /\ resolves keys id pk /\ stolen pk = false /\ signing_payload (md_signed m) = Ok p /\ made pk p.

Definition root_safe (r : metadata root_t) (name : string) : Prop :=
  forall keys ids thr, root_delegates (md_signed r) name keys ids thr -> few_stolen keys ids thr.
Definition targets_safe (d : metadata targets_t) (name : string) : Prop :=
  forall keys ids thr, targets_delegates (md_signed d) name keys ids thr -> few_stolen keys ids thr.
Definition root_vouches {D} `{RoleTy D} (r : metadata root_t) (name : string) (m : metadata D) : Prop :=
  exists keys ids thr, root_delegates (md_signed r) name keys ids thr /\ owner_signed keys ids m.
Definition targets_vouches {D} `{RoleTy D} (d : metadata targets_t) (name : string) (m : metadata D) : Prop :=
  exists keys ids thr, targets_delegates (md_signed d) name keys ids thr /\ owner_signed keys ids m.

(** some owner whose key is not stolen has signed the content of [m] *)
Definition approved {D} `{RoleTy D} (m : metadata D) : Prop :=
  exists pk p, stolen pk = false /\ signing_payload (md_signed m) = Ok p /\ made pk p.
(** [intact name]: the keys of role [name] are in good hands.  Honest owners sign root metadata only if too few of the
    keys of every intact role are stolen, and targets metadata only if that is so for its delegations.  Both are only
    asked of documents that are shown to the client *)
Definition careful_roots (shown : string -> Prop) (intact : string -> Prop) : Prop :=
  forall data (r : metadata root_t), shown data -> from_bytes data = Ok r -> approved r -> forall name, intact name -> root_safe r name.
Definition careful_targets (shown : string -> Prop) (intact : string -> Prop) : Prop :=
  forall data (d : metadata targets_t), shown data -> from_bytes data = Ok d -> approved d -> forall name, intact name -> targets_safe d name.
(** no document among these bytes carries a forged signature *)
Definition genuine (shown : string -> Prop) : Prop :=
  (forall data (m : metadata root_t), shown data -> from_bytes data = Ok m -> unforged m) /\
  (forall data (m : metadata timestamp_t), shown data -> from_bytes data = Ok m -> unforged m) /\
  (forall data (m : metadata snapshot_t), shown data -> from_bytes data = Ok m -> unforged m) /\
  (forall data (m : metadata targets_t), shown data -> from_bytes data = Ok m -> unforged m).

(** the loaded role [name] was reached from the root over the roles [l], last first: by signatures that reach the
    threshold (trail), by signatures made by honest owners (vouched_trail) *)
Inductive trail (t : trusted) : string -> list string -> Prop :=
  | trail_root name m : t_targets t !! name = Some m -> root_signs (t_root t) name m -> trail t name [name]
  | trail_delegated d dm name m l : trail t d l -> t_targets t !! d = Some dm -> t_targets t !! name = Some m -> targets_signs dm name m -> trail t name (name :: l).
Inductive vouched_trail (t : trusted) : string -> list string -> Prop :=
  | vtrail_root name m : t_targets t !! name = Some m -> root_vouches (t_root t) name m -> vouched_trail t name [name]
  | vtrail_delegated d dm name m l : vouched_trail t d l -> t_targets t !! d = Some dm -> t_targets t !! name = Some m -> targets_vouches dm name m -> vouched_trail t name (name :: l).
End Resilience.
