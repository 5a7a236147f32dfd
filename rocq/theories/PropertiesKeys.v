(** * Properties C33-C37: key tables, key conversion, key IDs *)
From stdpp Require Import base gmap strings list.
From Coq Require Import ZArith String.
From Verif Require Import GoBase GoStr Json GoTime Types Marshal Keys Metadata SpecKeys StrProofs KeysProofs Toy Examples.
Open Scope Z_scope.

(** ** C33 *)
Theorem C33_key_table_consistent {CR : Crypto} (expires : gotime) (x : root_t) :
  key_history (md_signed (Root expires)) x ->
  consistent_keys x /\ (forall i k, in_table (rt_keys x) i k -> key_id k = Ok i) /\
  (forall n, (exists r, root_role x n r) <-> n ∈ ["root"; "snapshot"; "targets"; "timestamp"]).
Proof. exact (history_consistent expires x). Qed.
Print Assumptions C33_key_table_consistent.
(** no call panics, except through a key that has no ID *)
Theorem C33_calls_return {CR : Crypto} (expires : gotime) (x : root_t) :
  key_history (md_signed (Root expires)) x ->
  (forall i n, root_revoke_key x i n <> Panic) /\ (forall k n, (exists i, key_id k = Ok i) -> root_add_key x k n <> Panic).
Proof. exact (history_no_panic expires x). Qed.
Print Assumptions C33_calls_return.
(** a history with a key shared by two roles: it stays in the table until the second role drops it *)
Definition c33_run (x : root_t) (l : list (key * string + string * string)) : outcome root_t :=
  fold_left (fun o c => let! x := o in match c with inl (k, n) => root_add_key x k n | inr (i, n) => root_revoke_key x i n end) l (Ok x).
Definition c33_ids (o : outcome root_t) : option (list (option (list string)) * list bool) :=
  match o with
  | Ok x => Some (map (fun n => match mget (rt_roles x) n with Some (Some r) => Some (ids_of r) | _ => None end) ["root"; "snapshot"; "targets"; "timestamp"],
                  map (fun i => bool_decide (is_Some (mget (rt_keys x) i))) [idA; idB])
  | _ => None
  end.
Example C33_case :
  c33_ids (c33_run (md_signed (Root t2030)) [inl (toy_key pkA, ROOT); inl (toy_key pkA, TARGETS); inl (toy_key pkB, ROOT); inl (toy_key pkA, ROOT); inr (idA, ROOT)])
    = Some ([Some [idB]; Some []; Some [idA]; Some []], [true; true]) /\
  c33_ids (c33_run (md_signed (Root t2030)) [inl (toy_key pkA, ROOT); inl (toy_key pkA, TARGETS); inl (toy_key pkB, ROOT); inr (idA, ROOT); inr (idA, TARGETS)])
    = Some ([Some [idB]; Some []; Some []; Some []], [false; true]).
Proof. vm_compute. auto. Qed.
Example C33_case_history : exists x, key_history (md_signed (Root t2030)) x /\ exists k, in_table (rt_keys x) idA k.
Proof.
  destruct (root_add_key (md_signed (Root t2030)) (toy_key pkA) ROOT) as [y| |] eqn:E; [|vm_compute in E; discriminate..].
  exists y. split; [eapply kh_add; [apply kh_nil|exact E]|]. apply root_add_key_spec in E as (r & r' & i & _ & Hk & _ & (m & _ & Hm) & _).
  assert (i = idA) as -> by (assert (key_id (toy_key pkA) = Ok idA) by (vm_compute; reflexivity); congruence).
  eexists. eexists. split; [exact Hm|]. apply lookup_insert.
Qed.

(** ** C34: for any root metadata *)
Theorem C34_add_key {CR : Crypto} (x : root_t) (k : key) (n : string) (y : root_t) :
  root_add_key x k n = Ok y <->
  exists r r' i, root_role x n r /\ key_id k = Ok i /\ same_header x y /\
    table_with (rt_keys x) (rt_keys y) i (with_cached_id k i) /\
    root_role y n r' /\ role_with_ids r r' (with_id i (ids_of r)) /\ (r_keyids r' = None <-> i ∈ ids_of r /\ r_keyids r = None) /\
    forall n', n' <> n -> mget (rt_roles y) n' = mget (rt_roles x) n'.
Proof. exact (root_add_key_spec x k n y). Qed.
Print Assumptions C34_add_key.
Theorem C34_add_key_unknown_role {CR : Crypto} (x : root_t) (k : key) (n : string) :
  mget (rt_roles x) n = None <-> exists msg, root_add_key x k n = Err (ErrValue msg).
Proof. exact (root_add_key_unknown x k n). Qed.
Print Assumptions C34_add_key_unknown_role.
(** the role table of root metadata made by the API holds no nil pointers *)
Theorem C34_revoke_key {CR : Crypto} (x : root_t) (i n : string) (y : root_t) :
  (forall n, mget (rt_roles x) n <> Some None) ->
  root_revoke_key x i n = Ok y <->
  exists r r', root_role x n r /\ i ∈ ids_of r /\ same_header x y /\
    root_role y n r' /\ role_with_ids r r' (without_id i (ids_of r)) /\ r_keyids r' <> None /\
    (forall n', n' <> n -> mget (rt_roles y) n' = mget (rt_roles x) n') /\
    ((exists n' r'', root_role y n' r'' /\ i ∈ ids_of r'') -> rt_keys y = rt_keys x) /\
    (~ (exists n' r'', root_role y n' r'' /\ i ∈ ids_of r'') -> table_without (rt_keys x) (rt_keys y) i).
Proof. exact (root_revoke_key_spec x i n y). Qed.
Print Assumptions C34_revoke_key.
Theorem C34_revoke_key_fails {CR : Crypto} (x : root_t) (i n : string) :
  (forall n, mget (rt_roles x) n <> Some None) ->
  (exists msg, root_revoke_key x i n = Err (ErrValue msg)) <-> ~ exists r, root_role x n r /\ i ∈ ids_of r.
Proof. exact (root_revoke_key_err x i n). Qed.
Print Assumptions C34_revoke_key_fails.
Example C34_case :
  is_ok (root_add_key (ex_root_t 1) (toy_key pkC) ROOT) = true /\ is_ok (root_revoke_key (ex_root_t 1) idA ROOT) = true /\
  is_ok (root_add_key (ex_root_t 1) (toy_key pkC) "d1") = false /\ is_ok (root_revoke_key (ex_root_t 1) idC ROOT) = false.
Proof. vm_compute. auto. Qed.

(** ** C35: standard delegations.  A role name that occurs more than once is served in order of appearance. *)
Theorem C35_add_key {CR : Crypto} (x : targets_t) (k : key) (n : string) (d : delegations) (l : list delegatedrole) (y : targets_t) :
  tg_delegations x = Some d -> d_roles d = Some l -> targets_add_key x k n = Ok y ->
  exists i d' l', key_id k = Ok i /\ same_but_delegations x y /\ tg_delegations y = Some d' /\ d_succinct d' = d_succinct d /\ d_unrec d' = d_unrec d /\
    table_with (d_keys d) (d_keys d') i (with_cached_id k i) /\ d_roles d' = Some l' /\
    ((l' = l /\ (exists r, r ∈ l /\ dr_name r = n) /\ forall r, r ∈ l -> dr_name r = n -> i ∈ dr_ids r) \/
     (exists l1 r r' l2, l = l1 ++ r :: l2 /\ l' = l1 ++ r' :: l2 /\ dr_name r = n /\ i ∉ dr_ids r /\ dr_with_ids r r' (dr_ids r ++ [i]) /\
       forall r0, r0 ∈ l1 -> dr_name r0 = n -> i ∈ dr_ids r0)).
Proof. exact (targets_add_std_effect x k n d l y). Qed.
Print Assumptions C35_add_key.
Theorem C35_add_key_unique_names {CR : Crypto} (x : targets_t) (k : key) (n : string) (d : delegations) (l : list delegatedrole) (y : targets_t) :
  tg_delegations x = Some d -> d_roles d = Some l -> NoDup (map dr_name l) -> targets_add_key x k n = Ok y ->
  exists i d' l', key_id k = Ok i /\ same_but_delegations x y /\ tg_delegations y = Some d' /\ d_succinct d' = d_succinct d /\ d_unrec d' = d_unrec d /\
    table_with (d_keys d) (d_keys d') i (with_cached_id k i) /\ d_roles d' = Some l' /\ (exists r, r ∈ l /\ dr_name r = n) /\
    Forall2 (fun r r' => (dr_name r = n /\ dr_with_ids r r' (with_id i (dr_ids r))) \/ (dr_name r <> n /\ r' = r)) l l'.
Proof. exact (targets_add_std_unique x k n d l y). Qed.
Print Assumptions C35_add_key_unique_names.
Theorem C35_add_key_succeeds {CR : Crypto} (x : targets_t) (k : key) (n : string) (d : delegations) (l : list delegatedrole) :
  tg_delegations x = Some d -> d_roles d = Some l -> d_keys d <> None -> (exists i, key_id k = Ok i) ->
  (exists y, targets_add_key x k n = Ok y) <-> exists r, r ∈ l /\ dr_name r = n.
Proof. exact (targets_add_std x k n d l). Qed.
Print Assumptions C35_add_key_succeeds.
Theorem C35_unknown_role {CR : Crypto} (x : targets_t) (k : key) (i n : string) :
  (tg_delegations x = None \/ exists d l, tg_delegations x = Some d /\ d_roles d = Some l /\ forall r, r ∈ l -> dr_name r <> n) ->
  (exists msg, targets_add_key x k n = Err (ErrValue msg)) /\ (exists msg, targets_revoke_key x i n = Err (ErrValue msg)).
Proof. exact (targets_unknown x k i n). Qed.
Print Assumptions C35_unknown_role.
Theorem C35_revoke_key {CR : Crypto} (x : targets_t) (i n : string) (d : delegations) (l : list delegatedrole) (y : targets_t) :
  tg_delegations x = Some d -> d_roles d = Some l -> targets_revoke_key x i n = Ok y ->
  exists d' l1 r r' l2, same_but_delegations x y /\ tg_delegations y = Some d' /\ d_succinct d' = d_succinct d /\ d_unrec d' = d_unrec d /\
    l = l1 ++ r :: l2 /\ d_roles d' = Some (l1 ++ r' :: l2) /\ dr_name r = n /\ (forall r0, r0 ∈ l1 -> dr_name r0 <> n) /\
    i ∈ dr_ids r /\ dr_with_ids r r' (without_id i (dr_ids r)) /\
    ((exists r0, r0 ∈ l1 ++ r' :: l2 /\ i ∈ dr_ids r0) -> d_keys d' = d_keys d) /\
    (~ (exists r0, r0 ∈ l1 ++ r' :: l2 /\ i ∈ dr_ids r0) -> table_without (d_keys d) (d_keys d') i).
Proof. exact (targets_revoke_std x i n d l y). Qed.
Print Assumptions C35_revoke_key.
Theorem C35_revoke_key_fails {CR : Crypto} (x : targets_t) (i n : string) (d : delegations) (l : list delegatedrole) :
  tg_delegations x = Some d -> d_roles d = Some l ->
  (exists y, targets_revoke_key x i n = Ok y) \/ (exists msg, targets_revoke_key x i n = Err (ErrValue msg)) /\
    forall r l1 l2, l = l1 ++ r :: l2 -> dr_name r = n -> (forall r0, r0 ∈ l1 -> dr_name r0 <> n) -> i ∉ dr_ids r.
Proof. exact (targets_revoke_std_fails x i n d l). Qed.
Print Assumptions C35_revoke_key_fails.
(** succinct delegations: the role name is ignored *)
Theorem C35_add_key_succinct {CR : Crypto} (x : targets_t) (k : key) (n : string) (d : delegations) (s : succinctroles) (y : targets_t) :
  tg_delegations x = Some d -> d_roles d = None -> d_succinct d = Some s -> targets_add_key x k n = Ok y ->
  exists i d' s', key_id k = Ok i /\ same_but_delegations x y /\ tg_delegations y = Some d' /\ d_roles d' = None /\ d_unrec d' = d_unrec d /\
    table_with (d_keys d) (d_keys d') i (with_cached_id k i) /\ d_succinct d' = Some s' /\ sr_with_ids s s' (with_id i (sr_ids s)).
Proof. exact (targets_add_succinct x k n d s y). Qed.
Print Assumptions C35_add_key_succinct.
Theorem C35_revoke_key_succinct {CR : Crypto} (x : targets_t) (i n : string) (d : delegations) (s : succinctroles) (y : targets_t) :
  tg_delegations x = Some d -> d_roles d = None -> d_succinct d = Some s ->
  (targets_revoke_key x i n = Ok y -> exists d' s', i ∈ sr_ids s /\ same_but_delegations x y /\ tg_delegations y = Some d' /\ d_roles d' = None /\ d_unrec d' = d_unrec d /\
    table_without (d_keys d) (d_keys d') i /\ d_succinct d' = Some s' /\ sr_with_ids s s' (without_id i (sr_ids s))) /\
  ((exists msg, targets_revoke_key x i n = Err (ErrValue msg)) <-> i ∉ sr_ids s).
Proof. exact (targets_revoke_succinct x i n d s y). Qed.
Print Assumptions C35_revoke_key_succinct.
(** over any history the key table stays consistent with the roles *)
Theorem C35_key_table_consistent {CR : Crypto} (x y : targets_t) (d : delegations) :
  targets_key_history x y -> tg_delegations x = Some d -> (is_Some (d_roles d) \/ is_Some (d_succinct d)) -> consistent_delegations d ->
  exists d', tg_delegations y = Some d' /\ consistent_delegations d'.
Proof. exact (cons_history x y d). Qed.
Print Assumptions C35_key_table_consistent.
(** refuted: delegations without any role accept a key for a role that does not exist, and it stays in the table forever *)
Theorem C35_no_roles_refuted : exists (CR : Crypto) (x y : targets_t) (d d' : delegations) (k : key) (n i : string),
  tg_delegations x = Some d /\ consistent_delegations d /\ active_ids d = [] /\
  targets_add_key x k n = Ok y /\ tg_delegations y = Some d' /\ active_ids d' = [] /\ (exists k', in_table (d_keys d') i k') /\
  forall n', is_ok (targets_revoke_key y i n') = false.
Proof.
  destruct (bare_add_key (CR := toy_crypto) (toy_key pkA) idA "no-such-role") as (y & d' & H1 & H2 & H3 & H4 & H5 & H6 & H7); [vm_compute; reflexivity|].
  exists toy_crypto, (bare_targets bare_delegations), y, bare_delegations, d', (toy_key pkA), "no-such-role", idA.
  exact (conj eq_refl (conj H1 (conj H2 (conj H3 (conj H4 (conj H5 (conj H6 H7))))))).
Qed.
Print Assumptions C35_no_roles_refuted.
Example C35_case :
  is_ok (targets_add_key (md_signed ex_targets) (toy_key pkA) "d2") = true /\ is_ok (targets_revoke_key (md_signed ex_targets) idB "d1") = true /\
  is_ok (targets_add_key (md_signed ex_targets) (toy_key pkA) "d3") = false /\ is_ok (targets_revoke_key (md_signed ex_targets) idB "d2") = false.
Proof. vm_compute. auto. Qed.
Example C35_case_succinct :
  let x := mkTargets TARGETS "1.0" 1 t2030 None (Some (mkDelegations (Some ∅) None (Some (mkSuccinctRoles None 1 2 "b" None)) None)) None in
  match targets_add_key x (toy_key pkA) "" with Ok y => is_ok (targets_revoke_key y idA "") | _ => false end = true.
Proof. vm_compute. auto. Qed.

(** ** C36: relying on the PEM library as specified in SpecKeys *)
Theorem C36_public_key_round_trip {CR : Crypto} (p : pubkey) (k : key) :
  pem_round_trip -> key_from_public_key p = Ok k -> to_public_key k = Ok p.
Proof. exact (public_key_round_trip p k). Qed.
Print Assumptions C36_public_key_round_trip.
Theorem C36_supported_types {CR : Crypto} (p : pubkey) :
  (exists k, key_from_public_key p = Ok k) <->
  match p with PkRSA _ | PkECDSA _ => exists s, pem_encode p = Some s | PkEd25519 _ => True | PkOther _ => False end.
Proof. exact (public_key_types p). Qed.
Print Assumptions C36_supported_types.
Theorem C36_key_contents {CR : Crypto} (p : pubkey) (k : key) :
  key_from_public_key p = Ok k -> k_id k = "" /\ kv_unrec (k_val k) = None /\ k_unrec k = None /\
  match p with
  | PkRSA _ => k_type k = "rsa" /\ k_scheme k = "rsassa-pss-sha256" /\ pem_encode p = Some (kv_public (k_val k))
  | PkECDSA _ => k_type k = "ecdsa" /\ k_scheme k = "ecdsa-sha2-nistp256" /\ pem_encode p = Some (kv_public (k_val k))
  | PkEd25519 raw => k_type k = "ed25519" /\ k_scheme k = "ed25519" /\ kv_public (k_val k) = hex_encode raw
  | PkOther _ => False
  end.
Proof. exact (key_from_fields p k). Qed.
Print Assumptions C36_key_contents.
Example C36_case : pem_round_trip (CR := toy_crypto).
Proof. intros [] s; cbn; intros [= <-]; done. Qed.
Example C36_case_keys : map (fun p => match key_from_public_key p with Ok k => to_public_key k | _ => Panic end) [pkA; pkB; pkC] = map Ok [pkA; pkB; pkC].
Proof. vm_compute. reflexivity. Qed.

(** ** C37 *)
Theorem C37_id_is_content_hash {CR : Crypto} (k : key) (i : string) :
  ((exists j, key_unmarshal j = Ok k) \/ (exists p, key_from_public_key p = Ok k)) ->
  key_id k = Ok i <-> exists data, encode_canonical (key_marshal k) = Ok data /\ i = hex_encode (sha256 data).
Proof.
  exact (fun H => key_id_fresh k i (match H with
    | or_introl (ex_intro _ j Hj) => key_unmarshal_id j k Hj
    | or_intror (ex_intro _ p Hp) => proj1 (key_from_fields p k Hp) end)).
Qed.
Print Assumptions C37_id_is_content_hash.
Theorem C37_stable {CR : Crypto} (k : key) (i : string) : key_id k = Ok i -> key_id (with_cached_id k i) = Ok i.
Proof. exact (key_id_stable k i). Qed.
Print Assumptions C37_stable.
Theorem C37_equal_ids {CR : Crypto} (k1 k2 : key) (i d1 d2 : string) :
  k_id k1 = "" -> k_id k2 = "" -> key_id k1 = Ok i -> key_id k2 = Ok i ->
  encode_canonical (key_marshal k1) = Ok d1 -> encode_canonical (key_marshal k2) = Ok d2 -> sha256 d1 = sha256 d2.
Proof. exact (key_id_collision k1 k2 i d1 d2). Qed.
Print Assumptions C37_equal_ids.
(** ID() panics exactly for a fresh key whose content has no canonical form; such keys can be parsed *)
Theorem C37_when_id_panics {CR : Crypto} (k : key) :
  key_id k = Panic <-> k_id k = "" /\ ~ exists data, encode_canonical (key_marshal k) = Ok data.
Proof. exact (key_id_panics k). Qed.
Print Assumptions C37_when_id_panics.
Definition c37_doc : string := "{""keytype"":""ed25519"",""scheme"":""ed25519"",""keyval"":{""public"":""00""},""x"":1.5}".
Theorem C37_id_panic_refuted : exists (CR : Crypto) (doc : string) (j : json) (k : key),
  parse_json doc = Some j /\ key_unmarshal j = Ok k /\ key_id k = Panic.
Proof.
  exists toy_crypto, c37_doc.
  destruct (parse_json c37_doc) as [j|] eqn:Ej; [|vm_compute in Ej; discriminate]. exists j.
  destruct (key_unmarshal j) as [k| |] eqn:Ek.
  - exists k. split; [done|]. split; [done|]. vm_compute in Ej. injection Ej as <-. vm_compute in Ek. injection Ek as <-. vm_compute. reflexivity.
  - vm_compute in Ej. injection Ej as <-. vm_compute in Ek. discriminate.
  - vm_compute in Ej. injection Ej as <-. vm_compute in Ek. discriminate.
Qed.
Print Assumptions C37_id_panic_refuted.
Example C37_case : String.length idA = 64%nat /\ idA <> idB /\ key_id (toy_key pkA) = Ok idA /\ k_id (toy_key pkA) = "".
Proof. vm_compute. repeat split; discriminate. Qed.
