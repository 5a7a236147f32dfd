(** * Properties C27-C32 *)
From stdpp Require Import base gmap strings list.
From Coq Require Import ZArith Lia Ascii String.
From Verif Require Import GoBase GoStr Json Types Marshal Keys Glob Metadata SpecUtf8 SpecDeleg StrProofs Utf8Proofs GlobProofs DelegProofs Toy Examples.
Open Scope Z_scope.

(** ** C27 *)
(** no path is accepted that does not match *)
Theorem C27_no_false_match {CR : Crypto} (r : delegatedrole) (target : string) :
  slist (dr_paths r) <> [] -> is_delegated_path r target = true ->
  exists pat, pat ∈ slist (dr_paths r) /\ path_matches pat target.
Proof. exact (is_delegated_path_sound r target). Qed.
Print Assumptions C27_no_false_match.
(** exact for ASCII paths and any pattern *)
Theorem C27_exact_ascii {CR : Crypto} (r : delegatedrole) (target : string) :
  slist (dr_paths r) <> [] -> ascii_only target ->
  is_delegated_path r target = true <-> exists pat, pat ∈ slist (dr_paths r) /\ path_matches pat target.
Proof. exact (is_delegated_path_ascii r target). Qed.
Print Assumptions C27_exact_ascii.
(** why the exact statement is for ASCII: behind a star, characters of several bytes are matched from the middle *)
Theorem C27_multibyte_refuted : exists (CR : Crypto) (r : delegatedrole),
  slist (dr_paths r) = ["*??"] /\ is_char 8364 "€" /\ is_delegated_path r "€" = true.
Proof. exact (ex_intro _ toy_crypto multibyte_refuted). Qed.
Print Assumptions C27_multibyte_refuted.
(** patterns: the only error is a malformed pattern, and it depends on the pattern alone *)
Theorem C27_bad_pattern (p name : string) : (exists e, glob_match p name = Err e) <-> ~ exists ts, glob_parse p ts.
Proof. exact (glob_match_bad p name). Qed.
Print Assumptions C27_bad_pattern.
(** wildcards do not cross a separator: as many segments as one of the patterns *)
Theorem C27_same_depth {CR : Crypto} (r : delegatedrole) (target : string) ss : slist (dr_paths r) <> [] -> is_delegated_path r target = true -> segments target ss ->
  exists pat ps, pat ∈ slist (dr_paths r) /\ segments pat ps /\ List.length ps = List.length ss.
Proof.
  intros Hne Hd Hs. destruct (is_delegated_path_sound r target Hne Hd) as (pat & Hp & Hm). pose proof Hm as (ps & ss' & H1 & _). exists pat, ps.
  split; [exact Hp|]. split; [exact H1|]. exact (path_matches_depth pat target ps ss Hm H1 Hs).
Qed.
Print Assumptions C27_same_depth.
Definition c27_role (ps : list string) : delegatedrole := mkDelegatedRole "d" None 1 false None (Some ps) None.
Example C27_case :
  is_delegated_path (c27_role ["a/*/[x-z]?.bin"]) "a/foo/y1.bin" = true /\
  is_delegated_path (c27_role ["a/*"]) "a/b/c" = false /\ is_delegated_path (c27_role ["["; "\*"]) "*" = true.
Proof. vm_compute. auto. Qed.
Example C27_case_spec : path_matches "a/*" "a/b".
Proof.
  exists ["a"; "*"], ["a"; "b"]. split; [by apply segments_split|]. split; [by apply segments_split|]. constructor; [|constructor; [|constructor]].
  - exists [GLit "a"]. split; repeat constructor; done.
  - exists [GStar]. split; [repeat constructor|]. rewrite <- (app_nil_s "b"). constructor; repeat constructor. done.
Qed.

(** ** C28: refuted for every digest function and every path; the digest is compared in base64 *)
Theorem C28_refuted {CR : Crypto} (target : string) : exists r : delegatedrole,
  slist (dr_paths r) = [] /\ slist (dr_hash_prefixes r) = [hex_encode (sha256 target)] /\ is_delegated_path r target = false.
Proof. exact (hex_prefix_refuted target). Qed.
Print Assumptions C28_refuted.
Theorem C28_base64_prefix {CR : Crypto} (r : delegatedrole) (target : string) :
  slist (dr_paths r) = [] ->
  is_delegated_path r target = true <-> exists h t, h ∈ slist (dr_hash_prefixes r) /\ b64url_encode (sha256 target) = String.append h t.
Proof. exact (hash_prefix_spec r target). Qed.
Print Assumptions C28_base64_prefix.
(** with both lists the prefixes are ignored *)
Theorem C28_prefixes_ignored_with_paths {CR : Crypto} (r r' : delegatedrole) (target : string) :
  slist (dr_paths r) <> [] -> dr_paths r = dr_paths r' -> is_delegated_path r target = is_delegated_path r' target.
Proof. exact (prefixes_ignored r r' target). Qed.
Print Assumptions C28_prefixes_ignored_with_paths.
Example C28_case : exists h, h <> "" /\ is_delegated_path (mkDelegatedRole "d" None 1 false (Some [h]) None None) "file" = true.
Proof. exists (str_take 4 (b64url_encode (sha256 "file"))). split; [vm_compute; discriminate|vm_compute; reflexivity]. Qed.

(** ** C29 *)
Theorem C29_roles_for_target {CR : Crypto} (d : delegations) (l : list delegatedrole) (target : string) :
  d_roles d = Some l ->
  exists m, roles_for_target d target = Ok m /\
    (forall n, (exists t, m !! n = Some t) <-> exists r, r ∈ l /\ dr_name r = n /\ is_delegated_path r target = true) /\
    (forall n t, m !! n = Some t -> exists r, r ∈ l /\ dr_name r = n /\ is_delegated_path r target = true /\ dr_terminating r = t).
Proof. exact (roles_for_target_names d l target). Qed.
Print Assumptions C29_roles_for_target.
(** which flag: that of the last such role *)
Theorem C29_last_role_decides {CR : Crypto} (d : delegations) (l : list delegatedrole) (target : string) :
  d_roles d = Some l ->
  exists m, roles_for_target d target = Ok m /\ forall n t,
    m !! n = Some t <-> exists l1 r l2, l = l1 ++ r :: l2 /\ dr_name r = n /\ dr_terminating r = t /\ is_delegated_path r target = true /\
      forall r', r' ∈ l2 -> dr_name r' = n -> is_delegated_path r' target = false.
Proof. exact (roles_for_target_spec d l target). Qed.
Print Assumptions C29_last_role_decides.
Theorem C29_no_delegation {CR : Crypto} (d : delegations) (target : string) :
  d_roles d = None -> (d_succinct d = None -> roles_for_target d target = Ok ∅) /\
  (forall s, d_succinct d = Some s -> roles_for_target d target = succinct_roles_for s target).
Proof. exact (roles_for_target_none d target). Qed.
Print Assumptions C29_no_delegation.
Definition c29_d : delegations :=
  mkDelegations None (Some [mkDelegatedRole "x" None 1 false None (Some ["a*"]) None; mkDelegatedRole "y" None 1 true None (Some ["b"]) None;
                            mkDelegatedRole "x" None 1 true None (Some ["*"]) None]) None None.
Example C29_case : (match roles_for_target c29_d "ab" with Ok m => map_to_list m | _ => [] end) = [("x", true)].
Proof. vm_compute. reflexivity. Qed.

(** ** C30 *)
Theorem C30_one_bin {CR : Crypto} (r : succinctroles) (target : string) :
  1 <= sr_bit_length r <= 32 ->
  exists n i name, first_32_bits (sha256 target) n /\ leftmost_bits (sr_bit_length r) n i /\ is_bin r i name /\
    succinct_roles_for r target = Ok {[name := true]} /\ name ∈ get_roles r /\ is_delegated_role r name = true.
Proof. exact (one_bin r target). Qed.
Print Assumptions C30_one_bin.
Theorem C30_all_bins (r : succinctroles) :
  1 <= sr_bit_length r <= 32 ->
  NoDup (get_roles r) /\ Z.of_nat (List.length (get_roles r)) = 2 ^ sr_bit_length r /\
  forall k name, get_roles r !! k = Some name <-> Z.of_nat k < 2 ^ sr_bit_length r /\ is_bin r (Z.of_nat k) name.
Proof. exact (all_bins r). Qed.
Print Assumptions C30_all_bins.
Definition c30_r : succinctroles := mkSuccinctRoles None 1 5 "bin" None.
Example C30_case : get_roles c30_r !! 17%nat = Some "bin-11" /\ get_roles c30_r !! 31%nat = Some "bin-1f" /\ List.length (get_roles c30_r) = 32%nat /\ is_delegated_role c30_r "bin-1f" = true.
Proof. vm_compute. auto. Qed.

(** ** C31: refuted (signs and upper-case digits are accepted); exact description *)
Theorem C31_refuted : exists (r : succinctroles) (name : string),
  1 <= sr_bit_length r <= 32 /\ is_delegated_role r name = true /\ ~ name ∈ get_roles r.
Proof. exact delegated_role_refuted. Qed.
Print Assumptions C31_refuted.
Theorem C31_bins_accepted (r : succinctroles) (name : string) :
  1 <= sr_bit_length r <= 62 -> name ∈ get_roles r -> is_delegated_role r name = true.
Proof. exact (member_accepted r name). Qed.
Print Assumptions C31_bins_accepted.
Theorem C31_accepted_exactly (r : succinctroles) (name : string) :
  1 <= sr_bit_length r <= 62 ->
  is_delegated_role r name = true <->
  exists w suffix sign digits v, bin_digits (sr_bit_length r) w /\ name = String.append (sr_name_prefix r) (String.append "-" suffix) /\
    String.length suffix = w /\ suffix = String.append sign digits /\ positional 16 any_hex digits v /\
    ((sign = "" \/ sign = "+") /\ v < 2 ^ sr_bit_length r \/ sign = "-" /\ v = 0).
Proof. exact (is_delegated_role_spec r name). Qed.
Print Assumptions C31_accepted_exactly.
(** an accepted name written with lower-case digits only is a bin *)
Theorem C31_lower_case_digits (r : succinctroles) (suffix : string) :
  1 <= sr_bit_length r <= 62 ->
  Forall (fun c => c ∈ list_ascii_of_string "0123456789abcdef") (list_ascii_of_string suffix) ->
  is_delegated_role r (String.append (sr_name_prefix r) (String.append "-" suffix)) = true ->
  String.append (sr_name_prefix r) (String.append "-" suffix) ∈ get_roles r.
Proof. exact (lower_case_member r suffix). Qed.
Print Assumptions C31_lower_case_digits.

(** ** C32: refuted; when it panics exactly *)
Theorem C32_refuted {CR : Crypto} : exists (j : json) (r : succinctroles),
  succinct_unmarshal j = Ok r /\ forall target, succinct_roles_for r target = Panic.
Proof. exact succinct_panic_refuted. Qed.
Print Assumptions C32_refuted.
Theorem C32_panics_iff {CR : Crypto} (r : succinctroles) (target : string) :
  - 2 ^ 63 <= sr_bit_length r < 2 ^ 63 ->
  succinct_roles_for r target = Panic <-> 32 < sr_bit_length r \/ sr_bit_length r <= 32 - 2 ^ 63.
Proof. exact (succinct_panics r target). Qed.
Print Assumptions C32_panics_iff.
