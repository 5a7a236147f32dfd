(** * Property C119: delegations of the repository simulator *)
From stdpp Require Import base gmap strings list.
From Coq Require Import ZArith Lia Ascii String.
From Verif Require Import GoBase GoStr Json GoTime Types Marshal Keys Metadata TrustedMetadata Fetcher Updater Files Cli ExampleClients ExampleRepos Simulator
  StrProofs SpecUtf8 SpecText SpecRound SpecDeleg SpecBasic SpecSig SpecKeys KeysProofs SpecTrusted SpecPublish SpecUpdater SpecReach TrustedProofs PathProofs SpecRepos ReposProofs RoundBase TeamsProofs RunsProofs GenerateProofs Toy Examples ExamplesUpdater PropertiesRepos SpecSimulator SimulatorProofs PropertiesSimulator SpecSimRoles SimRolesProofs.
Open Scope Z_scope.

(** ** C119 *)
(** Whatever is done to the simulator (any acts of C112 and any number of delegations from its top-level targets, with any
    paths or hash prefixes, any of them terminating, and with any targets, in any order): no call fails, and after a last
    UpdateSnapshot every new client that trusts the first root gets, for every path and after any earlier requests, what
    was added under that path to the top-level targets, else what a role lists that is delegated the path, else an error *)
Theorem C119_delegated {CR : Crypto} E key tr e local h tr1 tr2 : pem_round_trip -> text_keys key -> keys_work key (keys_for h) -> time_ok e -> Z.of_nat (List.length h) < 2 ^ 62 ->
  Forall (fun x => sensible x.2) (acts h) -> Forall (fun x => fresh_role x.1 /\ leaf_content x.2) (delegations_of h) -> NoDup (map (fun x => dr_name x.1) (delegations_of h)) ->
  exists S1 S2 S root, new_repository E key tr e local = Ok S1 /\ sm_roots S1 = [root] /\ take_steps E key h S1 = Ok S2 /\ sim_update_snapshot E tr1 tr2 S2 = Ok S /\
    forall E2 path_of c now i, fetches_from E E2 path_of c S -> fits E c S -> new_client E2 c root i -> Z.of_nat (List.length (sm_roots S)) <= 1 + c_max_root_rotations c -> now <= instant e ->
      (forall r x, (r, x) ∈ delegations_of h -> role_reachable E path_of c S (dr_name r) /\ now <= instant (tg_expires x)) -> Z.of_nat (List.length (delegations_of h)) <= c_max_delegations c ->
      forall path earlier, exists i' t w w' o, updater_new E2 c now i = (i', Ok t) /\ asked E2 c earlier (mkWorld t i') w /\ get_target_info E2 c path w = (w', o) /\ answer h path o.
Proof.
  intros Hpem Htext Hwork Ht Hlen Hs Hds Hnd. set (N := (4 + sum_list (map (fun x => keys_made x.2) (acts h)) + List.length (delegations_of h))%nat). change (keys_for h) with (names N) in Hwork.
  destruct (new_run E key N Hpem Hwork Htext tr e local ltac:(lia) Ht) as (S1 & kr & b0 & r0 & H1 & H2 & H3 & H4 & H5 & H6).
  assert (listed S1 (fun _ => None)) as Hl1 by exact (new_listed E key tr e local S1 H1).
  assert (deleg key N S1 []) as Hd1 by (apply (deleg_none key N S1 e local _ H4 Hl1); intros n Hn; by apply (new_signers E key n tr e local)).
  assert (Forall good_step h) as Hg.
  { apply Forall_forall. intros s Hin. destruct s as [t1 t2 a|r x]; [apply (proj1 (Forall_forall _ _) Hs (t1, t2, a))|apply (proj1 (Forall_forall _ _) Hds (r, x))]; apply elem_of_list_omap; by eexists. }
  destruct (steps_run E key N Hpem Hwork Htext h S1 kr b0 r0 [] e local [] Hg) with (f := fun _ : string => @None targetfile) as (S2 & kr2 & l & gs & P1 & P2 & P3 & P4 & P5 & P6 & P7 & P8); try done; [rewrite step_keys_sum, H5; unfold N; lia|by apply content_body|by destruct Hl1 as [_ ?]|]. rewrite app_nil_l in P3, P5.
  destruct (snapshot_roles E key N Hpem Hwork tr1 tr2 S2 kr2 b0 r0 l e local gs P2 P3 P4 P5) as (S & Q1 & Q2 & Q3 & Q4 & Q5 & Q6 & Q7 & Q8 & _).
  exists S1, S2, S, b0. split; [done|]. split; [by destruct H3 as [-> _]|]. split; [done|]. split; [done|]. intros E2 path_of c now i F1 F2 F3 F4 F5 F6 F7 path earlier.
  assert (sm_roots S = b0 :: map fst l) as Hroots by apply Q3. rewrite Hroots in F4. cbn [List.length] in F4. rewrite map_length in F4.
  assert (forall r x, (r, x) ∈ delegations_of h <-> exists k, (r, x, k) ∈ gs) as Hgs.
  { intros r x. rewrite <- P6, !elem_of_list_In, in_map_iff. setoid_rewrite elem_of_list_In. split; [intros ([[? ?] k] & [= -> ->] & H); by exists k|intros (k & H); by exists (r, x, k)]. }
  assert (lists_all S (fun path => match last_added (acts h) path with Some data => Some (info_of path data) | None => None end)) as Hlist by (unfold lists_all; rewrite Q8; exact P8).
  destruct (sim_roles E key N Hpem Hwork path_of E2 S kr2 b0 r0 l e local c now i gs _ path earlier Q2 Q3 Q4 Q5 Q6 Q7 Hlist ltac:(lia) F1 F2 F3 ltac:(lia) F5) as (i' & t & w & w' & o & W1 & W2 & W3 & W4).
  { intros [[r x] k] Hx. apply (F6 r x), Hgs. by exists k. }
  { assert (List.length (delegations_of h) = List.length gs) as <- by (rewrite <- P6; apply map_length). done. }
  exists i', t, w, w', o. split; [done|]. split; [done|]. split; [done|]. unfold answer. cbn beta in W4. destruct (last_added (acts h) path) as [data|].
  - eexists. split; [exact W4|]. split; [done|]. apply info_matches.
  - destruct W4 as [([[r x] k] & tf & X1 & X2 & X3 & ->)|[He W4]].
    + left. exists r, x, tf, (targetfile_kept path tf). split; [apply Hgs; by exists k|]. split; [done|]. split; [done|]. split; [done|]. split; [done|]. split; [done|]. done.
    + right. split; [done|]. destruct W4 as [W4|([[r x] k] & X1 & X2)].
      * left. intros r x tf [k Hk]%Hgs. exact (W4 (r, x, k) tf Hk).
      * right. exists r, x. split; [apply Hgs; by exists k|done].
Qed.
Print Assumptions C119_delegated.

(** *** Two delegated roles: both are delegated the file, only the second one has it *)
Definition deleg_role (name : string) (pattern : string) : delegatedrole := mkDelegatedRole name (Some []) 1 false None (Some [pattern]) None.
Definition deleg_content (files : list (string * string)) : targets_t :=
  mkTargets "targets" "1.0.31" 1 t2030 (Some (list_to_map (map (fun x => (x.1, Some (info_of (CR := toy_crypto) x.1 x.2))) files))) None (Some ∅).
Definition two_roles : list (delegatedrole * targets_t) :=
  [(deleg_role "role1" "lib/*", deleg_content [("other.txt", "not delegated")]); (deleg_role "role2" "*/file-?.txt", deleg_content [("lib/file-a.txt", "hello")])].
(** one delegation before the acts of [sim_history] and the others after them *)
Definition steps_of (ds : list (delegatedrole * targets_t)) : list step :=
  map (fun x => Delegate x.1 x.2) (take 1 ds) ++ map (fun x => Act x.1.1 x.1.2 x.2) sim_history ++ map (fun x => Delegate x.1 x.2) (drop 1 ds).
Definition roles_run (ds : list (delegatedrole * targets_t)) : outcome sim :=
  let! S := new_repository (CR := toy_crypto) (order_env false) sim_key [] t2030 "/local" in
  let! S := take_steps (CR := toy_crypto) (order_env false) sim_key (steps_of ds) S in sim_update_snapshot (CR := toy_crypto) (order_env false) [] [] S.
Definition roles_b : bool := match roles_run two_roles with
  | Ok s => fits_b (sim_config "") s && (List.length (sm_roots s) =? 3)%nat && String.eqb (sm_local s) "/local" &&
      forallb (fun n => small 5000000 (fetch_metadata (CR := toy_crypto) (order_env false) [] s n 0)) ["role1"; "role2"]
  | _ => false
  end.
Lemma two_roles_ok : Forall (fun x => fresh_role x.1 /\ leaf_content x.2) two_roles.
Proof.
  assert (forall name pattern, string_all url_unreserved name = true -> string_all plain_char name = true -> string_all plain_char pattern = true -> name ∉ [""; "."; ".."; "root"; "timestamp"; "snapshot"; "targets"] -> dotless name -> fresh_role (deleg_role name pattern)) as Hr.
  { intros name pattern H1 H2 H3 H4 H5. split; [done|]. split; [done|]. split; [|done]. split; [by apply plain_text|]. split; [apply Forall_nil_2|]. split; [done|]. split; [apply Forall_nil_2|]. split; [apply Forall_cons_2; [by apply plain_text|apply Forall_nil_2]|]. split; [by left|]. by intros ? ? ?. }
  assert (forall p data, string_all plain_char p = true -> Z.of_nat (String.length data) < 2 ^ 63 -> leaf_content (deleg_content [(p, data)])) as Hl.
  { intros p data Hp Hd. unfold deleg_content. cbn [map fst snd list_to_map foldr]. split; [|split; [done|]; split; [done|]; split; [|done]].
    - split; [by apply plain_text|]. split; [by apply plain_text|]. split; [done|]. split; [vm_compute; repeat split; try reflexivity; intros [=]|]. split; [|split; [|split; [done|intros k v Hk; cbn in Hk; by rewrite lookup_empty in Hk]]].
      + intros k o Hk. cbn [tg_targets mget] in Hk. apply lookup_insert_Some in Hk as [[<- <-]|[_ Hk]]; [|by rewrite lookup_empty in Hk]. split; [by apply plain_text|]. intros x [= <-]. by apply (info_wf (CR := toy_crypto)).
      + intros k. cbn [tg_targets mget]. destruct (decide (p = k)) as [->|Hn]; [by rewrite lookup_insert|]. by rewrite lookup_insert_ne, lookup_empty by done.
    - intros n f. cbn [tg_targets mget]. intros Hk. apply lookup_insert_Some in Hk as [[_ [= <-]]|[_ Hk]]; [done|by rewrite lookup_empty in Hk]. }
  unfold two_roles. repeat (apply Forall_cons_2; [cbn [fst snd]; split; [apply Hr; [vm_compute; reflexivity..|by apply (bool_decide_unpack _)|vm_compute; reflexivity]|apply Hl; [vm_compute; reflexivity|vm_compute; reflexivity]]|]). apply Forall_nil_2.
Qed.

Lemma two_roles_keys : forall n, n ∈ keys_for (steps_of two_roles) -> n ∈ sim_digits.
Proof. apply Forall_forall, (bool_decide_unpack (Forall (fun n => n ∈ sim_digits) (keys_for (steps_of two_roles)))). vm_compute. exact I. Qed.
Lemma sim_history_sensible : Forall (fun x : trace * trace * act => sensible x.2) sim_history.
Proof.
  unfold sim_history. cbn [map]. repeat (apply Forall_cons_2; [cbn [snd sensible]|]); try done.
  - split; [by apply plain_text|vm_compute; reflexivity].
  - intros r. rewrite !elem_of_cons, elem_of_nil. tauto.
  - split; [by apply plain_text|vm_compute; reflexivity].
  - split; [by apply plain_text|vm_compute; reflexivity].
  - intros r. rewrite !elem_of_cons, elem_of_nil. tauto.
Qed.
Lemma role_near S name root : sm_local S = "/local" -> name ∈ ["role1"; "role2"] -> (forall tr v, fetch_metadata (CR := toy_crypto) (order_env false) tr S name v = fetch_metadata (CR := toy_crypto) (order_env false) [] S name 0) ->
  small 5000000 (fetch_metadata (CR := toy_crypto) (order_env false) [] S name 0) = true -> role_reachable (CR := toy_crypto) (order_env false) sim_path (sim_config root) S name.
Proof.
  intros Hl Hn Hf Hs. split; [|split].
  - rewrite Hl. change (with_slash (c_metadata_url (sim_config root))) with ("https://r" +:+ "/local/metadata/"). unfold sim_path. by rewrite app_assoc_s, strip_own.
  - intros v. rewrite Hl. change (with_slash (c_metadata_url (sim_config root))) with ("https://r" +:+ "/local/metadata/"). unfold sim_path. by rewrite app_assoc_s, strip_own.
  - intros tr v data H. rewrite Hf in H. exact (small_ok _ _ _ Hs H).
Qed.
Lemma role_same S name tr v : name ∈ ["role1"; "role2"] -> fetch_metadata (CR := toy_crypto) (order_env false) tr S name v = fetch_metadata (CR := toy_crypto) (order_env false) [] S name 0.
Proof. rewrite !elem_of_cons, elem_of_nil. intros [->|[->|[]]]; reflexivity. Qed.
Example C119_case : exists S1 S2 S root, keys_work (CR := toy_crypto) sim_key (keys_for (steps_of two_roles)) /\ text_keys (CR := toy_crypto) sim_key /\ Forall (fun x => sensible x.2) (acts (steps_of two_roles)) /\ time_ok t2030 /\
  Forall (fun x => fresh_role x.1 /\ leaf_content x.2) (delegations_of (steps_of two_roles)) /\ NoDup (map (fun x => dr_name x.1) (delegations_of (steps_of two_roles))) /\
  new_repository (CR := toy_crypto) (order_env false) sim_key [] t2030 "/local" = Ok S1 /\ sm_roots S1 = [root] /\ take_steps (CR := toy_crypto) (order_env false) sim_key (steps_of two_roles) S1 = Ok S2 /\
  sim_update_snapshot (CR := toy_crypto) (order_env false) [] [] S2 = Ok S /\ List.length (sm_roots S) = 3%nat /\ fetches_from (CR := toy_crypto) (order_env false) (client_env false S) sim_path (sim_config root) S /\ fits (CR := toy_crypto) (order_env false) (sim_config root) S /\
  new_client (client_env false S) (sim_config root) root no_files /\ (forall r x, (r, x) ∈ delegations_of (steps_of two_roles) -> role_reachable (CR := toy_crypto) (order_env false) sim_path (sim_config root) S (dr_name r) /\ ex_now <= instant (tg_expires x)) /\
  exists i' t w w' tf, updater_new (CR := toy_crypto) (client_env false S) (sim_config root) ex_now no_files = (i', Ok t) /\ asked (CR := toy_crypto) (client_env false S) (sim_config root) ["file.txt"; "no file"] (mkWorld t i') w /\
    get_target_info (CR := toy_crypto) (client_env false S) (sim_config root) "lib/file-a.txt" w = (w', Ok (Some tf)) /\ tf_path tf = "lib/file-a.txt" /\ matches_target (CR := toy_crypto) tf "hello".
Proof.
  assert (time_ok t2030) as Ht by (vm_compute; repeat split; try reflexivity; intros [=]). pose proof (sim_keys_work _ two_roles_keys) as Hk. pose proof sim_history_sensible as Hs. pose proof two_roles_ok as Hds.
  assert (acts (steps_of two_roles) = sim_history /\ delegations_of (steps_of two_roles) = two_roles) as [Ea Ed] by done. rewrite <- Ea in Hs. rewrite <- Ed in Hds.
  assert (NoDup (map (fun x => dr_name x.1) (delegations_of (steps_of two_roles)))) as Hnd by (apply (bool_decide_unpack _); vm_compute; exact I).
  destruct (C119_delegated (CR := toy_crypto) (order_env false) sim_key [] t2030 "/local" (steps_of two_roles) [] [] example_pem sim_text Hk Ht ltac:(vm_compute; reflexivity) Hs Hds Hnd) as (S1 & S2 & S & root & H1 & H2 & H3 & H4 & H5).
  assert (roles_b = true) as Hb by (vm_compute; reflexivity). unfold roles_b, roles_run in Hb. rewrite H1 in Hb. cbn [obind] in Hb. rewrite H3 in Hb. cbn [obind] in Hb. rewrite H4 in Hb.
  apply andb_true_iff in Hb as [[[Hb1 Hb2%Nat.eqb_eq]%andb_true_iff Hb3%String.eqb_eq]%andb_true_iff Hb4]. cbn [forallb] in Hb4. apply andb_true_iff in Hb4 as [Hb4 [Hb5 _]%andb_true_iff].
  assert (fits (CR := toy_crypto) (order_env false) (sim_config root) S) as Hf by exact (fits_ok (sim_config "") S Hb1).
  pose proof (sim_fetches false S (sim_config root) Hb3 eq_refl) as Hfe. pose proof (sim_new_client false S root) as Hn.
  assert (forall r x, (r, x) ∈ delegations_of (steps_of two_roles) -> role_reachable (CR := toy_crypto) (order_env false) sim_path (sim_config root) S (dr_name r) /\ ex_now <= instant (tg_expires x)) as Hre.
  { intros r x Hin. rewrite Ed in Hin. unfold two_roles in Hin. rewrite !elem_of_cons, elem_of_nil in Hin.
    destruct Hin as [Hin|[Hin|[]]]; injection Hin as -> ->; (split; [|vm_compute; intros [=]]); cbn [deleg_role dr_name]; apply role_near; [exact Hb3|left|intros; apply role_same; left|exact Hb4|exact Hb3|right; left|intros; apply role_same; right; left|exact Hb5]. }
  exists S1, S2, S, root. split; [exact Hk|]. split; [exact sim_text|]. split; [exact Hs|]. split; [exact Ht|]. split; [exact Hds|]. split; [exact Hnd|]. split; [exact H1|]. split; [exact H2|]. split; [exact H3|]. split; [exact H4|]. split; [exact Hb2|]. split; [exact Hfe|]. split; [exact Hf|]. split; [exact Hn|]. split; [exact Hre|].
  destruct (H5 (client_env false S) sim_path (sim_config root) ex_now no_files Hfe Hf Hn ltac:(rewrite Hb2; vm_compute; intros [=]) ltac:(vm_compute; intros [=]) Hre ltac:(vm_compute; intros [=]) "lib/file-a.txt" ["file.txt"; "no file"]) as (i' & t & w & w' & o & W1 & W2 & W3 & W4).
  clear H1 H2 H3 H4 H5 Hb1 Hb2 Hb3 Hb4 Hb5 Hre Hfe Hf Hn. unfold answer in W4. rewrite Ea, Ed in W4. assert (last_added sim_history "lib/file-a.txt" = None) as Hla by (vm_compute; reflexivity). rewrite Hla in W4.
  assert (forall x tf, knows (deleg_content x) "lib/file-a.txt" tf -> (x = [("other.txt", "not delegated")] -> False) /\ (x = [("lib/file-a.txt", "hello")] -> tf = info_of (CR := toy_crypto) "lib/file-a.txt" "hello")) as Hkn.
  { intros x tf Hkn. split; intros ->; unfold knows, deleg_content in Hkn; cbn [map fst snd list_to_map foldr tg_targets mget] in Hkn; apply lookup_insert_Some in Hkn as [[He Hkn]|[He Hkn]]; [discriminate He|by rewrite lookup_empty in Hkn|injection Hkn as <-; reflexivity|by destruct He]. }
  destruct W4 as [(r & x & tf & tf' & Hin & Hc & Hkw & -> & Hp & Hl & Hh)|[_ W4]].
  - exists i', t, w, w', tf'. split; [exact W1|]. split; [exact W2|]. split; [exact W3|]. split; [exact Hp|]. assert (tf = info_of (CR := toy_crypto) "lib/file-a.txt" "hello") as Htf.
    { unfold two_roles in Hin. rewrite !elem_of_cons, elem_of_nil in Hin. destruct Hin as [Hin|[Hin|[]]]; injection Hin as -> ->; apply Hkn in Hkw as [K1 K2]; [by destruct K1|by apply K2]. }
    rewrite Htf in Hl, Hh. destruct (info_matches (CR := toy_crypto) "lib/file-a.txt" "lib/file-a.txt" "hello") as [Hm _]. unfold matches_target in *. rewrite Hl, Hh. exact Hm.
  - exfalso. destruct W4 as [W4|(r & x & Hin & _ & Hterm & _)].
    + apply (W4 (deleg_role "role2" "*/file-?.txt") (deleg_content [("lib/file-a.txt", "hello")]) (info_of (CR := toy_crypto) "lib/file-a.txt" "hello")); [right; left|vm_compute; reflexivity|]. unfold knows, deleg_content. cbn [map fst snd list_to_map foldr tg_targets mget]. apply lookup_insert.
    + unfold two_roles in Hin. rewrite !elem_of_cons, elem_of_nil in Hin. destruct Hin as [Hin|[Hin|[]]]; injection Hin as -> _; discriminate Hterm.
Qed.

(** *** A name with a dot *)
(** the simulator takes what is before the first dot of a file name as its version: with consistent snapshots it does not
    find the file of a role whose name has a dot, and the client fails for the targets of this role *)
Definition dotted_role : list (delegatedrole * targets_t) := [(deleg_role "role.1" "lib/*", deleg_content [("lib/file-a.txt", "hello")])].
Definition dotted_b : bool := match roles_run dotted_role with
  | Ok s => match sm_roots s with
            | root :: _ => match updater_new (CR := toy_crypto) (client_env false s) (sim_config root) ex_now no_files with
                           | (i', Ok t) => match get_target_info (CR := toy_crypto) (client_env false s) (sim_config root) "lib/file-a.txt" (mkWorld t i') with (_, Err (ErrDownloadHTTP 404 _)) => true | _ => false end
                           | _ => false
                           end
            | [] => false
            end
  | _ => false
  end.
Theorem C119_dotted_refuted : exists S root i' t w' m, roles_run dotted_role = Ok S /\ sm_roots S !! 0%nat = Some root /\ updater_new (CR := toy_crypto) (client_env false S) (sim_config root) ex_now no_files = (i', Ok t) /\
  get_target_info (CR := toy_crypto) (client_env false S) (sim_config root) "lib/file-a.txt" (mkWorld t i') = (w', Err (ErrDownloadHTTP 404 m)).
Proof.
  assert (dotted_b = true) as Hb by (vm_compute; reflexivity). unfold dotted_b in Hb. destruct (roles_run dotted_role) as [s|?|]; [|discriminate..]. destruct (sm_roots s) as [|root l] eqn:Er; [discriminate|].
  destruct (updater_new _ _ _ _) as [i' [t|?|]] eqn:E1; [|discriminate..]. destruct (get_target_info _ _ _ _) as [w' [?|e|]] eqn:E2; [discriminate| |discriminate].
  assert (exists m, e = ErrDownloadHTTP 404 m) as [m ->]. { clear -Hb. destruct e as []; try discriminate Hb. destruct (Z.eq_dec status 404) as [->|Hn]; [by eexists|]. exfalso. revert Hb Hn. clear. intros Hb Hn. repeat (match type of Hb with match ?p with _ => _ end = true => destruct p; try discriminate Hb end). by apply Hn. }
  exists s, root, i', t, w', m. split; [reflexivity|]. split; [rewrite Er; reflexivity|]. split; [exact E1|exact E2].
Qed.
Print Assumptions C119_dotted_refuted.
