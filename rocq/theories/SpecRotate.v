(** * A repository that publishes new root metadata while clients are at work (C125) *)
From stdpp Require Import base gmap strings list.
From Coq Require Import ZArith Ascii String.
From Verif Require Import GoBase GoStr GoTime Types Marshal Keys Metadata TrustedMetadata Fetcher Updater SpecBasic SpecSig SpecDeleg SpecTrusted SpecUpdater SpecReach SpecLive.
Open Scope Z_scope.

(** the root after [k] of the updates [roots] of [r0] *)
Definition root_number (r0 : metadata root_t) (roots : list (string * metadata root_t)) (k : nat) : metadata root_t :=
  match k with O => r0 | S j => match roots !! j with Some (_, r) => r | None => r0 end end.
(** a release, for clients that know [k] updates of the root *)
Definition under (roots : list (string * metadata root_t)) (k : nat) (R : release) : release :=
  let P := rel_pub R in
  mkRelease (mkPublication (take k roots) (pub_timestamp P) (pub_timestamp_md P) (pub_snapshot P) (pub_snapshot_md P) (pub_targets P) (pub_targets_md P) (pub_snapshot_info P) (pub_targets_info P))
    (rel_roles R) (rel_files R).

Section SpecRotate.
Context {CR : Crypto} (E : env) (c : config).
(** [roots] are updates of [r0], one after the other; at the moment [tr] the first [m tr] of them are on the server *)
Definition roots_appear (start : trace) (r0 : metadata root_t) (roots : list (string * metadata root_t)) (m : trace -> nat) : Prop :=
  (exists r, root_updates r0 roots r) /\
  (forall tr tr', later start tr -> later tr tr' -> (m tr <= m tr' <= List.length roots)%nat) /\
  (forall tr i data r len, later start tr -> roots !! i = Some (data, r) -> (i < m tr)%nat -> Z.of_nat (String.length data) <= len ->
     e_net E tr (url_of c "root" (fmt_dec (rt_version (md_signed r0) + 1 + Z.of_nat i))) len = Ok data) /\
  (forall tr len, later start tr -> exists e, e_net E tr (url_of c "root" (fmt_dec (rt_version (md_signed r0) + 1 + Z.of_nat (m tr)))) len = Err e /\ not_found e) /\
  (forall i data r, roots !! i = Some (data, r) -> Z.of_nat (String.length data) <= c_root_max c) /\
  Z.of_nat (List.length roots) <= c_max_root_rotations c /\ rt_version (md_signed r0) + c_max_root_rotations c < 2 ^ 63 - 1.
(** From [start] on, roots and releases are published.  Whenever a client asks for the timestamp it gets that of a release
    which is correctly signed for all roots that were the newest at some moment since [start], and whose files are on
    the server by then and stay there. *)
Definition rotating (start : trace) (r0 : metadata root_t) (roots : list (string * metadata root_t)) (m : trace -> nat) (now : Z) (Rs : list release) : Prop :=
  roots_appear start r0 roots m /\
  forall tr, later start tr -> exists R, R ∈ Rs /\ announces E c tr R /\
    forall k, (m start <= k <= m tr)%nat -> sound_release c r0 (root_number r0 roots k) now (under roots k R) /\ stays_up E c (root_number r0 roots k) R tr.
(** only the newest root counts: the release is correctly signed for the root that is the newest when it is announced *)
Definition rotating_at_once (start : trace) (r0 : metadata root_t) (roots : list (string * metadata root_t)) (m : trace -> nat) (now : Z) (Rs : list release) : Prop :=
  roots_appear start r0 roots m /\
  forall tr, later start tr -> exists R, R ∈ Rs /\ announces E c tr R /\ sound_release c r0 (root_number r0 roots (m tr)) now (under roots (m tr) R) /\ stays_up E c (root_number r0 roots (m tr)) R tr.
End SpecRotate.
