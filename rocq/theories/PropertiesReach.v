(** * Property C103: the targets of an honest repository are found and delivered *)
From stdpp Require Import base gmap strings list.
From Coq Require Import ZArith Lia Ascii String.
From Verif Require Import GoBase GoStr GoTime Types Marshal Keys Metadata TrustedMetadata Fetcher Updater SpecBasic SpecSig SpecDeleg SpecTrusted SpecUpdater SpecReach.
From Verif Require Import BasicProofs TrustedProofs WalkProofs HonestProofs ReachProofs Toy Examples ExamplesUpdater ExamplesHonest.
Open Scope Z_scope.

(** the repository, the client and its cache, as in C63, and what is cached of delegated roles *)
Definition works {CR : Crypto} (E : env) (c : config) (r0 r : metadata root_t) (P : publication) (now : Z) (D : gmap string role_file) (i : ios) : Prop :=
  document (c_trusted_root c) r0 /\ root_signs r0 "root" r0 /\ c_metadata_url c <> "" /\ c_trusted_root c <> "" /\ honest r0 r now P /\ on_server E c r0 r P /\ can_follow c r0 P /\ disk_works E c (io_disk i) /\
  (forall data, io_disk i !! cache_name c "timestamp" = Some data -> cached_timestamp r P data) /\
  (forall data, io_disk i !! cache_name c "snapshot" = Some data -> cached_snapshot r now P data) /\
  (forall data, io_disk i !! cache_name c "targets" = Some data -> cached_targets r now P data) /\
  (forall name f data, D !! name = Some f -> io_disk i !! cache_name c name = Some data -> cached_role P now D name f data).
Lemma works_setting {CR : Crypto} E c r0 r P now D i : works E c r0 r P now D i -> (forall name f, D !! name = Some f -> role_name_ok name /\ role_served E c r P now name f) -> setting E c r0 r P now D i.
Proof. intros (H1 & H2 & H3 & H4 & H5 & H6 & H7 & H8 & H9 & H10 & H11 & H12) Hr. split_and!; try done. intros name f Hf data. by apply H12. Qed.

(** ** What GetTargetInfo returns *)
(** after New and any number of other searches: the result of a pre-order search through everything published.  No
    role on the way fails to load, and the search ends early only if MaxDelegations+1 roles have been inspected *)
Theorem C103_search {CR : Crypto} E c r0 r P now D i path earlier : works E c r0 r P now D i -> Forall (honest_roles E c r P now D) (path :: earlier) ->
  exists i' t w w' o l v, updater_new E c now i = (i', Ok t) /\ asked E c earlier (mkWorld t i') w /\ get_target_info E c path w = (w', o) /\ search (everything r P D now) path [] ["targets"] l v /\
    Z.of_nat (List.length l) <= Z.max 0 (c_max_delegations c + 1) /\
    match v with
    | Found tf => o = Ok tf
    | Exhausted | Stopped => o = Err (EOther "target not found")
    | OutOfBudget => o = Err (EOther "target not found") /\ Z.of_nat (List.length l) = Z.max 0 (c_max_delegations c + 1)
    | Failed => False
    end.
Proof.
  intros Hw Hh. assert (forall name f, D !! name = Some f -> role_name_ok name /\ role_served E c r P now name f) as Hr by (apply Forall_cons in Hh as [[H _] _]; exact H).
  destruct (setting_search E c r0 r P now D i path earlier (works_setting _ _ _ _ _ _ _ _ Hw Hr)) as (i' & t & w & w' & o & l & v & H1 & H2 & H3 & _ & H4 & H5 & H6 & H7).
  { eapply Forall_impl; [exact Hh|]. by intros x [_ ?]. }
  exists i', t, w, w', o, l, v. split; [done|]. split; [done|]. split; [done|]. split; [done|]. unfold budget in *. split; [lia|]. unfold walked in H7.
  destruct o as [tf|e|]; [by subst v| |done]. destruct H7 as [?|[-> [-> |[-> |[-> Hl]]]]]; [done|done|done|]. split; [done|]. lia.
Qed.
Print Assumptions C103_search.

(** ** Every target can be found *)
(** without terminating delegations for the path, and with at most MaxDelegations+1 roles: if roles that delegate the path
    one to the next lead from targets to a role that lists it, GetTargetInfo returns an entry of such a role *)
Theorem C103_found {CR : Crypto} E c r0 r P now D i path earlier x f tf : works E c r0 r P now D i -> Forall (honest_roles E c r P now D) (path :: earlier) ->
  (forall n g k, all_roles P D !! n = Some g -> ~ delegated (rf_md g) path k true) -> Z.of_nat (size (all_roles P D)) <= c_max_delegations c + 1 ->
  leads (everything r P D now) path "targets" x -> all_roles P D !! x = Some f -> entry (rf_md f) path tf ->
  exists i' t w w' x' f' tf', updater_new E c now i = (i', Ok t) /\ asked E c earlier (mkWorld t i') w /\ get_target_info E c path w = (w', Ok tf') /\
    leads (everything r P D now) path "targets" x' /\ all_roles P D !! x' = Some f' /\ entry (rf_md f') path tf'.
Proof.
  intros Hw Hh Hterm Hsize Hlead Hx He. destruct (C103_search E c r0 r P now D i path earlier Hw Hh) as (i' & t & w & w' & o & l & v & H1 & H2 & H3 & H4 & H5 & H6).
  destruct (search_complete r P now D path l v (Z.to_nat (c_max_delegations c + 1)) x f tf H4) as [tf' ->]; try done; [by intros ->|lia|intros ->; lia|]. subst o.
  destruct (search_leads _ _ _ _ _ _ H4 tf' eq_refl) as (r1 & r2 & m & Hr1 & Hl & Hm & He' & _). apply elem_of_list_singleton in Hr1 as ->. apply everything_lookup in Hm as (f' & Hf' & ->). exists i', t, w, w', r2, f', tf'. done.
Qed.
Print Assumptions C103_found.
(** if all these entries are the same, that one; and then DownloadTarget returns the file and stores it.  Hash-prefixed
    names are excluded for targets in nested directories *)
Theorem C103_delivered {CR : Crypto} E c r0 r P now D i path earlier x f tf data fp p : works E c r0 r P now D i -> Forall (honest_roles E c r P now D) (path :: earlier) ->
  (forall n g k, all_roles P D !! n = Some g -> ~ delegated (rf_md g) path k true) -> Z.of_nat (size (all_roles P D)) <= c_max_delegations c + 1 ->
  leads (everything r P D now) path "targets" x -> all_roles P D !! x = Some f -> entry (rf_md f) path (Some tf) ->
  (forall x' f' tf', leads (everything r P D now) path "targets" x' -> all_roles P D !! x' = Some f' -> entry (rf_md f') path tf' -> tf' = Some tf) ->
  target_served E c r tf data -> (exists alg dig, lists (tf_hashes tf) alg dig) -> c_targets_url c <> "" -> file_for E c tf fp p ->
  (rt_consistent (md_signed r) = true -> c_prefix_hash c = true -> no_slash (tf_path tf) \/ exists d n, no_slash d /\ no_slash n /\ tf_path tf = d +:+ "/" +:+ n) ->
  exists i' t w w' w'', updater_new E c now i = (i', Ok t) /\ asked E c earlier (mkWorld t i') w /\ get_target_info E c path w = (w', Ok (Some tf)) /\
    download_target E c tf fp "" w' = (w'', Ok (p, data)) /\ (c_disable_cache c = false -> io_disk (w_io w'') !! p = Some data).
Proof.
  intros Hw Hh Hterm Hsize Hlead Hx He Hsame Hserved Hhash Hurl Hfile Hslash.
  assert (forall name f, D !! name = Some f -> role_name_ok name /\ role_served E c r P now name f) as Hr by (apply Forall_cons in Hh as [[H _] _]; exact H).
  destruct (setting_search E c r0 r P now D i path earlier (works_setting _ _ _ _ _ _ _ _ Hw Hr)) as (i' & t & w & w' & o & l & v & H1 & H2 & H3 & HI & H4 & H5 & H6 & H7).
  { eapply Forall_impl; [exact Hh|]. by intros y [_ ?]. }
  assert (v = OutOfBudget -> List.length l = budget c) as Hb. { intros ->. unfold walked in H7. destruct o as [?|?|]; [done| |done]. destruct H7 as [?|[_ [?|[?|[_ ?]]]]]; done. }
  destruct (search_complete r P now D path l v (budget c) x f (Some tf) H4) as [tf' ->]; try done; [unfold budget; lia|].
  destruct (search_leads _ _ _ _ _ _ H4 tf' eq_refl) as (r1 & r2 & m & Hr1 & Hl & Hm & He' & _). apply elem_of_list_singleton in Hr1 as ->. apply everything_lookup in Hm as (f' & Hf' & ->).
  pose proof (Hsame _ _ _ Hl Hf' He') as ->. assert (o = Ok (Some tf)) as -> by (unfold walked in H7; destruct o as [?|?|]; [congruence|destruct H7 as [?|[_ [?|[?|[? _]]]]]; done|done]).
  destruct HI as (HI1 & _ & _ & _ & _ & _ & HI2 & _). destruct (download_honest E c r tf fp p data w' HI1 HI2 Hurl Hserved Hhash Hslash Hfile) as (w'' & Hdl & _ & Hd). exists i', t, w, w', w''. done.
Qed.
Print Assumptions C103_delivered.

(** ** A concrete repository *)
(** targets delegates a/... to d1 and d2, and d1 delegates it to d3; a/x is listed by d3 *)
Definition reach_roles : list (string * metadata targets_t) :=
  [("targets", mk_targets [pkA] [("top", "top file")] [ex_dr "d1" [idB] false ["a/*"]; ex_dr "d2" [idC] false ["a/*"]]);
   ("d1", mk_targets [pkB] [("a/z", "zzz")] [ex_dr "d3" [idA] false ["a/*"]]); ("d2", mk_targets [pkC] [("a/y", "yyy")] []); ("d3", mk_targets [pkA] [("a/x", "hello")] [])].
Definition reach_files : list (string * string) :=
  ("https://r/2.root.json", bytes_of (ex_root 2)) :: ("https://t/a/" +:+ hex_encode (sha256 "hello") +:+ ".x", "hello") :: mk_files reach_roles.
Lemma reach_honest : honest_b reach_files ex_config ex_now (bytes_of (ex_root 2)) (bytes_of (mk_timestamp 1 (mk_snapshot reach_roles))) (bytes_of (mk_snapshot reach_roles)) (bytes_of (mk_targets [pkA] [("top", "top file")] [ex_dr "d1" [idB] false ["a/*"]; ex_dr "d2" [idC] false ["a/*"]])) = true.
Proof. vm_compute. reflexivity. Qed.

(** a checker for the conditions on delegated roles *)
Definition load_file (sn : metadata snapshot_t) (p : string * string) : option (string * role_file) :=
  match from_bytes (T := targets_t) p.2, mget (sn_meta (md_signed sn)) (p.1 +:+ ".json") with
  | Ok m, Some (Some f) => Some (p.1, mkRoleFile p.2 m f)
  | _, _ => None
  end.
Definition file_b (files : list (string * string)) (c : config) (r : metadata root_t) (now : Z) (p : string * role_file) : bool :=
  let f := p.2 in string_all url_unreserved p.1 && negb (existsb (String.eqb p.1) [""; "."; ".."; "root"; "timestamp"; "snapshot"; "targets"]) &&
  doc_b (rf_md f) && fresh_b (rf_md f) now && matches_b (rf_info f) (rf_data f) && (tg_version (md_signed (rf_md f)) =? mf_version (rf_info f)) &&
  (Z.of_nat (String.length (rf_data f)) <=? c_targets_max c) && served files (url_of c p.1 (version_in_url r (mf_version (rf_info f)))) (rf_data f).
Definition follow_b (roles : gmap string role_file) (path : string) (p : string * role_file) : bool :=
  match tg_delegations (md_signed (rf_md p.2)) with
  | None => true
  | Some d => match roles_for_target d path with
              | Ok l => forallb (fun q => negb q.2 && (String.eqb q.1 "targets" || match roles !! q.1 with Some f => is_ok (verify_delegate (rf_md p.2) q.1 (rf_md f)) | None => false end)) (map_to_list l)
              | _ => false
              end
  end.
Fixpoint chain_b (roles : gmap string role_file) (path x : string) (l : list string) : bool :=
  match l with
  | [] => true
  | y :: l => match roles !! x, roles !! y with
              | Some f, Some _ => match tg_delegations (md_signed (rf_md f)) with
                                  | Some d => match roles_for_target d path with Ok m => bool_decide (is_Some (m !! y)) | _ => false end
                                  | None => false
                                  end && chain_b roles path y l
              | _, _ => false
              end
  end.
Definition only_b (roles : gmap string role_file) (path x : string) : bool :=
  forallb (fun p => String.eqb p.1 x || match mget (tg_targets (md_signed (rf_md p.2))) path with None => true | Some _ => false end) (map_to_list roles).
(** [chain] leads from targets to the role [x], the only one that lists [path], with digest [dig] of [data] *)
Definition reach_b (files : list (string * string)) (c : config) (d1 dsn dtg : string) (ds : list (string * string)) (now : Z) (path : string) (chain : list string) (x : string) (data dig : string) : bool :=
  match from_bytes (T := root_t) d1, from_bytes (T := snapshot_t) dsn, from_bytes (T := targets_t) dtg with
  | Ok r, Ok sn, Ok tg =>
      match mget (sn_meta (md_signed sn)) "targets.json" with
      | Some (Some g) =>
          let l := omap (load_file sn) ds in let roles := <["targets" := mkRoleFile dtg tg g]> (list_to_map l : gmap string role_file) in
          forallb (file_b files c r now) l && forallb (follow_b roles path) (map_to_list roles) && Nat.eqb (size roles) (S (List.length ds)) && (Z.of_nat (size roles) <=? c_max_delegations c + 1) &&
          chain_b roles path "targets" chain && only_b roles path x && rt_consistent (md_signed r) && c_prefix_hash c &&
          match last ("targets" :: chain) with Some y => String.eqb x y | None => false end &&
          match roles !! x with
          | Some f => match mget (tg_targets (md_signed (rf_md f))) path with
                      | Some (Some tf) => is_ok (targetfile_verify tf data) && String.eqb (tf_path tf) path && bool_decide (mlist (tf_hashes tf) = [("sha256", dig)])
                      | _ => false
                      end
          | None => false
          end
      | _ => false
      end
  | _, _, _ => false
  end.
Lemma bytes_data sn ds name f : (list_to_map (omap (load_file sn) ds) : gmap string role_file) !! name = Some f -> exists data, load_file sn (name, data) = Some (name, f) /\ rf_data f = data.
Proof.
  intros H. apply elem_of_list_to_map_2 in H. apply elem_of_list_omap in H as ([n d] & _ & H). unfold load_file in *. cbn [fst snd] in *. destruct (from_bytes (T := targets_t) d) as [m| |] eqn:Hm; [|done..].
  destruct (mget (sn_meta (md_signed sn)) (n +:+ ".json")) as [[g|]|] eqn:Hg; [|done..]. injection H as <- <-. exists d. rewrite Hm, Hg. done.
Qed.
Lemma lists_one (h : hashes) alg dig : mlist h = [(alg, dig)] -> forall a d, lists h a d <-> a = alg /\ d = dig.
Proof.
  intros H a d. transitivity ((a, d) ∈ mlist h); [|rewrite H, elem_of_list_singleton; naive_solver].
  unfold lists. destruct h as [m|]; cbn [mlist]; [|split; [by intros (m & [=] & _)|by intros ?%elem_of_nil]]. rewrite elem_of_map_to_list. naive_solver.
Qed.
Lemma reach_check files c r P now d1 ds path chain x data dig : document d1 r -> document (pub_snapshot P) (pub_snapshot_md P) -> document (pub_targets P) (pub_targets_md P) -> lists_file (pub_snapshot_md P) "targets.json" (pub_targets_info P) ->
  reach_b files c d1 (pub_snapshot P) (pub_targets P) ds now path chain x data dig = true ->
  exists D f tf, honest_roles (ex_env files) c r P now D path /\ (forall n g k, all_roles P D !! n = Some g -> ~ delegated (rf_md g) path k true) /\ Z.of_nat (size (all_roles P D)) <= c_max_delegations c + 1 /\
    size (all_roles P D) = S (List.length ds) /\ leads (everything r P D now) path "targets" x /\ all_roles P D !! x = Some f /\ entry (rf_md f) path (Some tf) /\
    (forall x' f' tf', leads (everything r P D now) path "targets" x' -> all_roles P D !! x' = Some f' -> entry (rf_md f') path tf' -> tf' = Some tf) /\
    matches_target tf data /\ tf_path tf = path /\ (forall a d, lists (tf_hashes tf) a d <-> a = "sha256" /\ d = dig) /\ rt_consistent (md_signed r) = true /\ c_prefix_hash c = true /\ D = list_to_map (omap (load_file (pub_snapshot_md P)) ds).
Proof.
  intros [Hr _] [Hsn _] [Htg _] Hl%lists_file_mget. unfold reach_b. rewrite Hr, Hsn, Htg, Hl. cbv zeta. set (D := list_to_map (omap (load_file (pub_snapshot_md P)) ds) : gmap string role_file). change (<["targets" := _]> D) with (all_roles P D).
  rewrite !andb_true_iff. intros [[[[[[[[[A1 A2] A3] A4] A5] A6] A7] A8] A9] A10]. apply Nat.eqb_eq in A3. apply Z.leb_le in A4. rewrite forallb_forall in A1, A2. unfold only_b in A6. rewrite forallb_forall in A6.
  destruct (all_roles P D !! x) as [f|] eqn:Hx; [|done]. destruct (mget (tg_targets (md_signed (rf_md f))) path) as [[tf|]|] eqn:Hent; [|done..]. rewrite !andb_true_iff in A10. destruct A10 as [[B1 B2] B3]. apply bool_decide_eq_true in B3. apply String.eqb_eq in B2.
  assert (forall n g, all_roles P D !! n = Some g -> In (n, g) (map_to_list (all_roles P D))) as Hin by (intros n g H; by apply elem_of_list_In, elem_of_map_to_list).
  assert (forall n g d l, all_roles P D !! n = Some g -> tg_delegations (md_signed (rf_md g)) = Some d -> roles_for_target d path = Ok l -> forall k b, l !! k = Some b -> b = false /\ (k = "targets" \/ exists f', all_roles P D !! k = Some f' /\ targets_signs (rf_md g) k (rf_md f'))) as Hfol.
  { intros n g d l Hn Hd Hro k b Hk. specialize (A2 _ (Hin _ _ Hn)). unfold follow_b in A2. cbn [snd] in A2. rewrite Hd, Hro in A2. rewrite forallb_forall in A2. assert (In (k, b) (map_to_list l)) as Hkb by (by apply elem_of_list_In, elem_of_map_to_list).
    specialize (A2 _ Hkb). cbn [fst snd] in A2. apply andb_true_iff in A2 as [H1 H2]. split; [by destruct b|]. apply orb_true_iff in H2 as [H|H2]; [left; by apply String.eqb_eq|right]. destruct (all_roles P D !! k) as [f'|] eqn:Hk'; [|done]. exists f'. split; [done|].
    apply targets_signs_ok. by destruct (verify_delegate _ _ _) as [[]| |]. }
  exists D, f, tf. split.
  { split.
    - intros name g Hg. pose proof Hg as Hg'. apply elem_of_list_to_map_2, elem_of_list_In in Hg'. specialize (A1 _ Hg'). unfold file_b in A1. cbn [fst snd] in A1. rewrite !andb_true_iff in A1. destruct A1 as [[[[[[[C1 C2] C3] C4] C5] C6] C7] C8].
      apply bytes_data in Hg as (d & Hld & Hd). unfold load_file in Hld. cbn [fst snd] in Hld. destruct (from_bytes (T := targets_t) d) as [m| |] eqn:Hm; [|done..]. destruct (mget (sn_meta (md_signed (pub_snapshot_md P))) (name +:+ ".json")) as [[gi|]|] eqn:Hgi; [|done..]. injection Hld as <-. cbn [rf_data rf_md rf_info] in *.
      split. { split; [done|]. intros Hbad. apply negb_true_iff in C2. assert (existsb (String.eqb name) [""; "."; ".."; "root"; "timestamp"; "snapshot"; "targets"] = true) as C2' by (apply existsb_exists; exists name; split; [by apply elem_of_list_In|apply String.eqb_refl]). congruence. }
      split; [split; [done|by apply String.eqb_eq]|]. split; [by apply fresh_ok|]. split; [by apply lists_file_mget|]. split; [by apply matches_ok|]. split; [by apply Z.eqb_eq|]. split; [intros _; by apply Z.leb_le|by apply served_ok].
    - intros n g Hn. split.
      + intros d Hd. specialize (A2 _ (Hin _ _ Hn)). unfold follow_b in A2. cbn [snd] in A2. rewrite Hd in A2. destruct (roles_for_target d path) as [l| |]; [by exists l|done..].
      + intros k b Hdel Hk. pose proof Hdel as (d & Hd & _). specialize (A2 _ (Hin _ _ Hn)). unfold follow_b in A2. cbn [snd] in A2. rewrite Hd in A2. destruct (roles_for_target d path) as [l| |] eqn:Hro; [|done..].
        apply (delegated_spec _ _ _ _ Hd Hro) in Hdel. destruct (Hfol _ _ _ _ Hn Hd Hro _ _ Hdel) as [_ [?|?]]; done. }
  split.
  { intros n g k Hn Hdel. pose proof Hdel as (d & Hd & _). specialize (A2 _ (Hin _ _ Hn)). unfold follow_b in A2. cbn [snd] in A2. rewrite Hd in A2. destruct (roles_for_target d path) as [l| |] eqn:Hro; [|done..].
    apply (delegated_spec _ _ _ _ Hd Hro) in Hdel. rewrite forallb_forall in A2. assert (In (k, true) (map_to_list l)) as Hkb by (by apply elem_of_list_In, elem_of_map_to_list). specialize (A2 _ Hkb). by cbn [fst snd negb andb] in A2. }
  split; [done|]. split; [done|]. split.
  { assert (forall l y, chain_b (all_roles P D) path y l = true -> leads (everything r P D now) path "targets" y -> forall z, last (y :: l) = Some z -> leads (everything r P D now) path "targets" z) as Hgo.
    { clear -r. induction l as [|y' l IH]; intros y Hc Hy z Hz; [by injection Hz as <-|]. cbn [chain_b] in Hc. destruct (all_roles P D !! y) as [g|] eqn:Hg; [|done]. destruct (all_roles P D !! y') as [g'|] eqn:Hg'; [|done].
      apply andb_true_iff in Hc as [Hc1 Hc2]. destruct (tg_delegations (md_signed (rf_md g))) as [d|] eqn:Hd; [|done]. destruct (roles_for_target d path) as [m| |] eqn:Hro; [|done..]. apply bool_decide_eq_true in Hc1 as [b Hb].
      apply (IH y' Hc2); [|done]. eapply leads_step; [exact Hy|apply everything_lookup; by exists g|by apply (delegated_spec _ _ _ _ Hd Hro)|]. exists (rf_md g'). apply everything_lookup. by exists g'. }
    destruct (last ("targets" :: chain)) as [y|] eqn:Hlast; [|done]. apply String.eqb_eq in A9. subst y. apply (Hgo chain "targets" A5); [|done]. constructor. eexists. apply everything_lookup. eexists. split; [apply all_targets|done]. }
  split; [done|]. split; [by apply entry_spec|]. split.
  { intros x' f' tf' _ Hx' He'%entry_spec. specialize (A6 _ (Hin _ _ Hx')). cbn [fst snd] in A6. rewrite He', orb_false_r in A6. apply String.eqb_eq in A6. congruence. }
  split; [apply targetfile_verify_ok; by destruct (targetfile_verify tf data) as [[]| |]|]. split; [done|]. split; [by apply lists_one|]. done.
Qed.
(** the names of a/x and of a/b/c with a hash *)
Lemma app_cons_inv (a : ascii) s dir t : String a s = dir +:+ t -> (dir = "" /\ t = String a s) \/ exists dir', dir = String a dir' /\ s = dir' +:+ t.
Proof. destruct dir as [|b dir]; cbn [String.append]; [by left|]. intros [= <- ->]. right. by exists dir. Qed.
Lemma app_nil_inv dir t : "" = dir +:+ t -> dir = "" /\ t = "".
Proof. by destruct dir. Qed.
Lemma hash_named_ax h name : hash_named "a/x" h name -> name = "a/" +:+ h +:+ ".x".
Proof.
  intros [[Hn _]|(dir & base & Hp & Hn & ->)].
  { unfold no_slash in Hn. cbn in Hn. apply Forall_cons in Hn as [_ Hn]. apply Forall_cons in Hn as [Hn _]. done. }
  apply app_cons_inv in Hp as [[-> [=]]|(d1 & -> & Hp)]. apply app_cons_inv in Hp as [[-> [= ->]]|(d2 & -> & Hp)]; [done|]. apply app_cons_inv in Hp as [[-> [=]]|(d3 & -> & Hp)]. apply app_nil_inv in Hp as [_ [=]].
Qed.
Lemma hash_named_abc h name : hash_named "a/b/c" h name -> name = "a/b/" +:+ h +:+ ".c".
Proof.
  intros [[Hn _]|(dir & base & Hp & Hn & ->)].
  { unfold no_slash in Hn. cbn in Hn. apply Forall_cons in Hn as [_ Hn]. apply Forall_cons in Hn as [Hn _]. done. }
  apply app_cons_inv in Hp as [[-> [=]]|(d1 & -> & Hp)]. apply app_cons_inv in Hp as [[-> [= ->]]|(d2 & -> & Hp)].
  { unfold no_slash in Hn. cbn in Hn. apply Forall_cons in Hn as [_ Hn]. apply Forall_cons in Hn as [Hn _]. done. }
  apply app_cons_inv in Hp as [[-> [=]]|(d3 & -> & Hp)]. apply app_cons_inv in Hp as [[-> [= ->]]|(d4 & -> & Hp)]; [done|]. apply app_cons_inv in Hp as [[-> [=]]|(d5 & -> & Hp)]. apply app_nil_inv in Hp as [_ [=]].
Qed.
Lemma empty_works files r0 r P D : document (c_trusted_root ex_config) r0 -> root_signs r0 "root" r0 -> honest r0 r ex_now P -> on_server (ex_env files) ex_config r0 r P -> can_follow ex_config r0 P -> works (ex_env files) ex_config r0 r P ex_now D no_files.
Proof.
  intros H1 H2 H3 H4 H5. assert (forall x data, io_disk no_files !! x = Some data -> False) as Hno by (intros x data H; by pose proof (eq_trans (eq_sym H) (lookup_empty (M := gmap string) x)) as [=]).
  split; [exact H1|]. split; [exact H2|]. split; [by intros [=]|]. split; [apply String.eqb_neq; vm_compute; reflexivity|]. split; [exact H3|]. split; [exact H4|]. split; [exact H5|]. split. { right. split; [done|]. split; [done|]. split; [done|]. exists "/w". split; [done|]. intros n. apply (lookup_empty (M := gmap string)). }
  split; [intros data H; by destruct (Hno _ _ H)|]. split; [intros data H; by destruct (Hno _ _ H)|]. split; [intros data H; by destruct (Hno _ _ H)|]. intros name f data _ H. by destruct (Hno _ _ H).
Qed.
Lemma newest_document r0 r1 d r (l : list (string * metadata root_t)) : root_updates r0 ((d, r1) :: l) r -> document d r1.
Proof. by inversion 1. Qed.
(** all hypotheses of C103_delivered, with three delegated roles and the target two delegations away *)
Example C103_case : exists r0 r P D f tf p, works (ex_env reach_files) ex_config r0 r P ex_now D no_files /\ Forall (honest_roles (ex_env reach_files) ex_config r P ex_now D) ["a/x"] /\
  (forall n g k, all_roles P D !! n = Some g -> ~ delegated (rf_md g) "a/x" k true) /\ Z.of_nat (size (all_roles P D)) <= c_max_delegations ex_config + 1 /\
  leads (everything r P D ex_now) "a/x" "targets" "d3" /\ all_roles P D !! "d3" = Some f /\ entry (rf_md f) "a/x" (Some tf) /\
  (forall x' f' tf', leads (everything r P D ex_now) "a/x" "targets" x' -> all_roles P D !! x' = Some f' -> entry (rf_md f') "a/x" tf' -> tf' = Some tf) /\
  target_served (ex_env reach_files) ex_config r tf "hello" /\ (exists alg dig, lists (tf_hashes tf) alg dig) /\ c_targets_url ex_config <> "" /\ file_for (ex_env reach_files) ex_config tf "" p /\
  (no_slash (tf_path tf) \/ exists d n, no_slash d /\ no_slash n /\ tf_path tf = d +:+ "/" +:+ n) /\ size (all_roles P D) = 4%nat.
Proof.
  destruct (honest_check _ _ _ _ _ _ _ reach_honest) as (r0 & r1 & ts & sn & tg & f & g & H1 & H2 & H3 & H4 & H5). set (P := mkPublication _ _ _ _ _ _ _ _ _) in *. pose proof H3 as (Hu & _ & _ & _ & (Hsn & _) & (Hl & _) & (Htg & _)).
  assert (document (bytes_of (ex_root 2)) r1) as Hr1 by (exact (newest_document _ _ _ _ _ Hu)).
  destruct (reach_check reach_files ex_config r1 P ex_now (bytes_of (ex_root 2)) (map (fun p => (p.1, bytes_of p.2)) (tail reach_roles)) "a/x" ["d1"; "d3"] "d3" "hello" (sha256 "hello") Hr1 Hsn Htg Hl) as (D & fd & tf & K1 & K2 & K3 & K4 & K5 & K6 & K7 & K8 & K9 & K10 & K11 & K12 & K13 & _).
  { vm_compute. reflexivity. }
  exists r0, r1, P, D, fd, tf. eexists. split; [by apply empty_works|]. split; [by apply Forall_singleton|]. do 6 (split; [done|]). split.
  { split; [done|]. rewrite K12, K13. split; [by intros [?|?]|]. intros _ _ alg dig name [-> ->]%K11 Hn. rewrite K10 in Hn. apply hash_named_ax in Hn as ->. apply served_ok. vm_compute. reflexivity. }
  split; [exists "sha256", (sha256 "hello"); by apply K11|]. split; [done|]. split. { right. split; [done|]. unfold target_file_path. rewrite K10. vm_compute. reflexivity. }
  rewrite K10. split; [|exact K4]. right. exists "a", "x". split; [by repeat constructor|]. split; [by repeat constructor|done].
Qed.

(** ** Refuted for nested directories *)
(** the files of a conforming repository are in dir/<hash>.base; the client asks for another name *)
Definition nested_roles : list (string * metadata targets_t) := [("targets", mk_targets [pkA] [("a/b/c", "hello")] [])].
Definition nested_files : list (string * string) :=
  ("https://r/2.root.json", bytes_of (ex_root 2)) :: ("https://t/a/b/" +:+ hex_encode (sha256 "hello") +:+ ".c", "hello") :: mk_files nested_roles.
Lemma nested_honest : honest_b nested_files ex_config ex_now (bytes_of (ex_root 2)) (bytes_of (mk_timestamp 1 (mk_snapshot nested_roles))) (bytes_of (mk_snapshot nested_roles)) (bytes_of (mk_targets [pkA] [("a/b/c", "hello")] [])) = true.
Proof. vm_compute. reflexivity. Qed.
Lemma not_delivered {CR : Crypto} E c i path : match started E c i with Some w => match get_target_info E c path w with (w', Ok (Some tf)) => match download_target E c tf "" "" w' with (_, Err _) => true | _ => false end | _ => false end | None => false end = true ->
  exists i' t w' tf w'' e, updater_new E c ex_now i = (i', Ok t) /\ get_target_info E c path (mkWorld t i') = (w', Ok (Some tf)) /\ download_target E c tf "" "" w' = (w'', Err e).
Proof.
  unfold started. destruct (updater_new E c ex_now i) as [i' [t| |]] eqn:H1; [|done..]. destruct (get_target_info E c path (mkWorld t i')) as [w' [[tf|]| |]] eqn:H2; [|done..]. destruct (download_target E c tf "" "" w') as [w'' [|e|]] eqn:H3; [done| |done]. intros _. by exists i', t, w', tf, w'', e.
Qed.
Theorem C103_nested_refuted : exists (CR : Crypto) E c r0 r P now D i path x f tf data p, works E c r0 r P now D i /\ honest_roles E c r P now D path /\
  (forall n g k, all_roles P D !! n = Some g -> ~ delegated (rf_md g) path k true) /\ Z.of_nat (size (all_roles P D)) <= c_max_delegations c + 1 /\
  leads (everything r P D now) path "targets" x /\ all_roles P D !! x = Some f /\ entry (rf_md f) path (Some tf) /\
  (forall x' f' tf', leads (everything r P D now) path "targets" x' -> all_roles P D !! x' = Some f' -> entry (rf_md f') path tf' -> tf' = Some tf) /\
  target_served E c r tf data /\ (exists alg dig, lists (tf_hashes tf) alg dig) /\ c_targets_url c <> "" /\ file_for E c tf "" p /\ tf_path tf = "a/b/c" /\
  exists i' t w' tf' w'' e, updater_new E c now i = (i', Ok t) /\ get_target_info E c path (mkWorld t i') = (w', Ok (Some tf')) /\ download_target E c tf' "" "" w' = (w'', Err e).
Proof.
  destruct (honest_check _ _ _ _ _ _ _ nested_honest) as (r0 & r1 & ts & sn & tg & f & g & H1 & H2 & H3 & H4 & H5). set (P := mkPublication _ _ _ _ _ _ _ _ _) in *. pose proof H3 as (Hu & _ & _ & _ & (Hsn & _) & (Hl & _) & (Htg & _)).
  assert (document (bytes_of (ex_root 2)) r1) as Hr1 by (exact (newest_document _ _ _ _ _ Hu)).
  destruct (reach_check nested_files ex_config r1 P ex_now (bytes_of (ex_root 2)) [] "a/b/c" [] "targets" "hello" (sha256 "hello") Hr1 Hsn Htg Hl) as (D & fd & tf & K1 & K2 & K3 & K4 & K5 & K6 & K7 & K8 & K9 & K10 & K11 & K12 & K13 & _).
  { vm_compute. reflexivity. }
  exists toy_crypto, (ex_env nested_files), ex_config, r0, r1, P, ex_now, D, no_files, "a/b/c", "targets", fd, tf, "hello". eexists. split; [by apply empty_works|]. do 7 (split; [done|]). split.
  { split; [done|]. rewrite K12, K13. split; [by intros [?|?]|]. intros _ _ alg dig name [-> ->]%K11 Hn. rewrite K10 in Hn. apply hash_named_abc in Hn as ->. apply served_ok. vm_compute. reflexivity. }
  split; [exists "sha256", (sha256 "hello"); by apply K11|]. split; [done|]. split. { right. split; [done|]. unfold target_file_path. rewrite K10. vm_compute. reflexivity. }
  split; [done|]. apply not_delivered. vm_compute. reflexivity.
Qed.
Print Assumptions C103_nested_refuted.
