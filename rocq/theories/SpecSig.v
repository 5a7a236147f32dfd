(** * Specification of delegation verification, independent of the code's loops *)
From stdpp Require Import base gmap strings list.
From Coq Require Import ZArith String.
From Verif Require Import GoBase Types Marshal Keys Metadata.
Open Scope Z_scope.

(** [x] delegates to [name]: the key table to use, the listed key IDs and the threshold *)
Definition root_delegates (x : root_t) (name : string) (keys : gomap (option key)) (ids : list string) (thr : Z) : Prop :=
  exists (roles : gmap string (option role)) (r : role),
    rt_roles x = Some roles /\ roles !! name = Some (Some r) /\
    keys = rt_keys x /\ ids = default [] (r_keyids r) /\ thr = r_threshold r.
(** standard delegations: the first role of that name counts; succinct delegations: the common key IDs *)
Definition targets_delegates (x : targets_t) (name : string) (keys : gomap (option key)) (ids : list string) (thr : Z) : Prop :=
  exists d : delegations, tg_delegations x = Some d /\ keys = d_keys d /\
    ((exists l1 r l2, d_roles d = Some (l1 ++ r :: l2) /\ Forall (fun r' => dr_name r' <> name) l1 /\
        dr_name r = name /\ ids = default [] (dr_keyids r) /\ thr = dr_threshold r)
     \/ (exists s, d_roles d = None /\ d_succinct d = Some s /\
        ids = default [] (sr_keyids s) /\ thr = sr_threshold s)).

(** the last signature a list of signatures carries for a key ID; the empty byte string if there is none *)
Definition last_signature (sigs : list signature) (id : string) (sig : string) : Prop :=
  (exists l1 s l2, sigs = l1 ++ s :: l2 /\ sig_keyid s = id /\ sig_sig s = sig /\ Forall (fun s' => sig_keyid s' <> id) l2)
  \/ (Forall (fun s' => sig_keyid s' <> id) sigs /\ sig = "").

Section Spec.
Context {CR : Crypto}.

(** the key table resolves the ID to a key that can be used for verification *)
Definition resolves (keys : gomap (option key)) (id : string) (pk : pubkey) : Prop :=
  exists (m : gmap string (option key)) (k : key), keys = Some m /\ m !! id = Some (Some k) /\ to_public_key k = Ok pk.
(** ed25519 verification needs 32-byte keys *)
Definition proper_pk (pk : pubkey) : Prop := forall raw, pk = PkEd25519 raw -> String.length raw = 32%nat.

(** key [id] has signed [payload] *)
Definition signed_by (keys : gomap (option key)) (sigs : list signature) (payload : string) (id : string) : Prop :=
  exists pk sig, resolves keys id pk /\ last_signature sigs id sig /\ raw_verify pk payload sig = true.

(** a threshold of the listed keys has signed *)
Definition threshold_signed (keys : gomap (option key)) (ids : list string) (thr : Z)
    (sigs : list signature) (payload : string) : Prop :=
  exists good : list string,
    NoDup good /\ (forall id, id ∈ good -> id ∈ ids /\ signed_by keys sigs payload id) /\ thr <= Z.of_nat (List.length good).

(** the complete acceptance condition for a set of listed keys *)
Definition accepts (keys : gomap (option key)) (ids : list string) (thr : Z)
    (sigs : list signature) (payload : outcome string) : Prop :=
  ids <> [] /\
  (forall id, id ∈ ids -> exists pk, resolves keys id pk /\ proper_pk pk) /\
  exists p, payload = Ok p /\ threshold_signed keys ids thr sigs p.
End Spec.

(** ** Signing *)
Section SpecSign.
Context {CR : Crypto}.
(** the key ID under which a signer's signatures appear *)
Definition signer_keyid (s : signer) (id : string) : Prop :=
  exists pk k, sg_public s = Ok pk /\ key_from_public_key pk = Ok k /\ key_id k = Ok id.
(** a working signer: its signatures verify with [pk] *)
Definition working_signer (s : signer) (pk : pubkey) : Prop :=
  sg_public s = Ok pk /\ forall msg, exists sig, sg_sign s msg = Ok sig /\ raw_verify pk msg sig = true.
(** signing one after the other *)
Fixpoint sign_by {T} `{RoleTy T} (l : list signer) (m : metadata T) : metadata T :=
  match l with [] => m | s :: l => sign_by l (fst (sign s m)) end.
End SpecSign.
