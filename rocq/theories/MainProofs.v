(** * The multi-repository example as a whole: proofs for C107 *)
From stdpp Require Import base gmap strings list.
From Coq Require Import ZArith Ascii String Lia.
From Verif Require Import GoBase GoStr Json GoTime Types Marshal Keys Glob Metadata TrustedMetadata Fetcher Updater Cli MultiRepo ExampleClients SpecSig SpecBasic SpecTrusted SpecUpdater SpecHistory SpecCli SpecMulti SpecExamples
  StrProofs PathProofs CleanProofs SigProofs BasicProofs SerialProofs TrustedProofs UpdaterProofs EventProofs RefreshProofs ApiProofs BlockProofs ClaimProofs FinalProofs HonestProofs HistoryProofs CliProofs InitProofs ExampleProofs MultiProofs BootProofs.
Open Scope Z_scope.

Section Main.
Context {CR : Crypto} (E : env).
(** what a client's verified metadata describe is authentic *)
Lemma session_authentic c now w r path role m tf data : session E c now w -> document (c_trusted_root c) r -> leads (w_trusted w) path "targets" role -> t_targets (w_trusted w) !! role = Some m -> entry m path (Some tf) -> matches_target tf data ->
  root_signs r "root" r /\ authentic r now path data.
Proof.
  intros Hs Hdoc Hl Hm He Hd. destruct (session_calls E c now w Hs) as (t0 & Ht0 & Hcalls). destruct (proj1 (tm_new_spec _ _ _) Ht0) as (r' & Hr' & Hrs & Ht).
  rewrite (document_root _ r' r Hr' Hdoc) in Hrs, Ht. split; [done|]. apply dcalls_calls in Hcalls. destruct (root_chain_calls t0 (w_trusted w) Hcalls (new_range _ _ _ Ht0)) as [n Hch]. rewrite Ht in Hch.
  assert (exists mt, t_targets (w_trusted w) !! "targets" = Some mt) as [mt Hmt] by (clear -Hl; induction Hl as [[x Hx]|]; [by exists x|done]).
  destruct (loaded_verified E c now w role m Hs Hm) as (sn & Hsn & _ & Hlist & Hexp & Hauth).
  exists (w_trusted w), role, m, tf, n. split_and!; try done; [by eapply session_ref|eapply dinv_top_level; [by eapply session_reachable|by eapply session_dinv|done]|by exists sn].
Qed.
Lemma asked_in target repos s l s' r info : asked E target repos s l s' -> (r, info) ∈ l -> r ∈ repos /\ exists sa sb, called E target s sa /\ ask E target r sa = (sb, Ok (Some info)).
Proof.
  induction 1 as [|r1 rs s s1 i1 l s' Ha _ IH|r1 rs s s1 e l s' Ha _ IH]; intros Hin; [by apply elem_of_nil in Hin|..].
  - apply elem_of_cons in Hin as [[= -> ->]|Hin]; [split; [by left|]; exists s, s1; split; [constructor|done]|]. destruct (IH Hin) as (? & sa & sb & Hc & Hb). split; [by right|]. exists sa, sb. split; [|done].
    eapply called_trans; [by eapply called_one|done].
  - destruct (IH Hin) as (? & sa & sb & Hc & Hb). split; [by right|]. exists sa, sb. split; [|done]. eapply called_trans; [by eapply called_one|done].
Qed.
(** a search that succeeds does not get to a null mapping *)
Lemma mappings_prefix l target s s' g : try_mappings E l target s = (s', Ok g) -> exists ms, (forall m, m ∈ ms -> Some m ∈ l) /\ try_mappings E (map Some ms) target s = (s', Ok g).
Proof.
  revert s. induction l as [|[m|] l IH]; intros s H; cbn [try_mappings] in H; [done| |done].
  apply sbind_inv in H as [(s1 & [g1|b] & H1 & H)|[(e & H1 & [=])|[H1 [=]]]].
  - exists [m]. split; [intros m' Hm; apply elem_of_list_singleton in Hm as ->; by left|]. cbn [map try_mappings]. unfold sbind. by rewrite H1.
  - destruct b; [done|]. destruct (IH _ H) as (ms & Hms & Hx). exists (m :: ms). split.
    + intros m' Hm. apply elem_of_cons in Hm as [-> |Hm]; [by left|right; by apply Hms].
    + cbn [map try_mappings]. unfold sbind. by rewrite H1.
Qed.
Lemma info_asked rm target s s' info repos : mr_get_target_info E rm target s = (s', Ok (info, repos)) ->
  exists m p r sa sb, Some m ∈ slist (rm_mapping rm) /\ p ∈ slist (mp_paths m) /\ glob_match p target = Ok true /\ r ∈ slist (mp_repos m) /\ r ∈ repos /\ called E target s sa /\ ask E target r sa = (sb, Ok (Some info)).
Proof.
  intros H. unfold mr_get_target_info in H. destruct (mappings_prefix _ _ _ _ _ H) as (ms & Hms & Hx).
  destruct (mr_info_ok E (mkRepoMap None (Some (map Some ms))) ms target s s' info repos eq_refl Hx) as (m & p & s1 & answers & Hm & Hp & Hg & Hc & Ha & _ & (r & Hr & Hin) & _).
  destruct (asked_in _ _ _ _ _ _ _ Ha Hin) as (Hr' & sa & sb & Hc1 & Hask). exists m, p, r, sa, sb. split; [by apply Hms|]. split; [done|]. split; [done|]. split; [done|]. split; [done|]. split; [by eapply called_trans|done].
Qed.
(** the file is there *)
Lemma download_stored repos tf fp u s s' p data : (forall n cl, mr_clients s !! n = Some cl -> c_disable_cache (cl_cfg cl) = false) -> mr_download_target E repos tf fp u s = (s', Ok (p, data)) ->
  matches_target tf data /\ io_disk (mr_io s') !! p = Some data.
Proof.
  intros Hn H. split; [by eapply mr_download_ok in H as [? _]|]. revert s Hn H. induction repos as [|r repos IH]; intros s Hn H; cbn [mr_download_target] in H; [done|].
  apply sbind_inv in H as [(s1 & [q x] & H1 & H)|[(e & H1 & [=])|[H1 [=]]]]. pose proof (good_find E tf fp r s) as (_ & _ & _).
  assert (forall s s', moves E s s' -> (forall n cl, mr_clients s !! n = Some cl -> c_disable_cache (cl_cfg cl) = false) -> forall n cl, mr_clients s' !! n = Some cl -> c_disable_cache (cl_cfg cl) = false) as Hmv.
  { intros sa sb (_ & M2 & M3) Ha n cl Hc. destruct (mr_clients sa !! n) as [cl0|] eqn:E0; [|by rewrite M3 in Hc]. destruct (M2 _ _ E0) as (cl1 & Hx & Hy & _). rewrite Hc in Hx. injection Hx as <-. rewrite Hy. by eapply Ha. }
  pose proof (good_find E tf fp r s) as Hm1. rewrite H1 in Hm1. cbn [fst] in Hm1. specialize (Hmv _ _ Hm1 Hn) as Hn1.
  destruct (negb _ && negb _) eqn:Eb.
  - injection H as <- <- <-. unfold on_client in H1. destruct (mr_clients s !! r) as [cl|] eqn:Ecl; [|done]. unfold lift in H1. cbn [w_io w_trusted] in H1. destruct (find_cached_target E (cl_cfg cl) tf fp (mr_io s)) as [i1 o1] eqn:Hf. injection H1 as <- ->.
    apply find_cached_ok in Hf as (Hd1 & _ & Ho1). cbn [mr_io w_io]. rewrite Hd1. apply andb_prop in Eb as [Eq _]. cbn [fst] in Eq. destruct Ho1 as [[= -> ->]|[(p' & d' & [= <- <-] & Hdisk & _)|(_ & _ & Hno)]]; [done|done|by destruct (Hno (q, x))].
  - apply satt_inv in H as [(s2 & [p2 d2] & H2 & H)|[(s2 & e & H2 & H)|[H2 [=]]]].
    + injection H as <- -> ->. unfold on_client in H2. destruct (mr_clients s1 !! r) as [cl1|] eqn:Ecl1; [|done]. specialize (Hn1 _ _ Ecl1). destruct (download_target E (cl_cfg cl1) tf fp u _) as [w2 o2] eqn:Hdl. injection H2 as <- ->.
      apply download_ok in Hdl as (_ & _ & _ & _ & [[Hx _]|[_ Hd]]); [congruence|]. cbn [mr_io]. rewrite Hd. apply lookup_same.
    + pose proof (good_download1 E tf fp u r s1) as Hm2. rewrite H2 in Hm2. cbn [fst] in Hm2. specialize (Hmv _ _ Hm2 Hn1) as Hn2. by apply (IH s2).
Qed.
Lemma multi_config_ok cwd text roots mc : multi_config cwd text roots = Ok mc -> exists mc0, mr_new_config text (Some roots) = Ok mc0 /\ mc_map mc = mc_map mc0 /\ mc_roots mc = Some roots /\
  mc_metadata_dir mc = path_join [cwd; "metadata"] /\ mc_targets_dir mc = path_join [cwd; "download"] /\ mc_disable_cache mc = false /\ text <> "" /\ forall n urls, mget (rm_repos (mc_map mc)) n = Some urls -> is_Some (roots !! n).
Proof.
  unfold multi_config. destruct (mr_new_config text (Some roots)) as [mc0| |] eqn:Hc; [|done..]. cbn. intros [= <-]. cbn. exists mc0. split; [done|]. split; [done|].
  destruct (new_config_ok _ _ _ Hc) as (Hr & Hall & Ht & _). split; [done|]. split; [done|]. split; [done|]. split; [|by split].
  unfold mr_new_config in Hc. destruct (_ || _); [done|]. destruct (parse_json text) as [[]|]; try done; try (destruct (decode_struct _ _ _); cbn in Hc; [|done..]; destruct (forallb _ _); [|done]; by injection Hc as <-).
Qed.
Lemma multi_run url turl target now1 now2 i i' p data cwd : e_cwd E = Some cwd -> multi_main E url turl target now1 now2 i = (i', Ok (p, data)) ->
  exists i1 text roots mc mp pat repo rdata r1, bootstrap E url turl now1 i = (i1, Ok (text, roots)) /\ text <> "" /\ mr_new_config text (Some roots) = Ok mc /\
    Some mp ∈ slist (rm_mapping (mc_map mc)) /\ pat ∈ slist (mp_paths mp) /\ glob_match pat target = Ok true /\ repo ∈ slist (mp_repos mp) /\
    roots !! repo = Some rdata /\ document rdata r1 /\ root_signs r1 "root" r1 /\ authentic r1 now2 target data /\ io_disk i' !! p = Some data.
Proof.
  intros Hcwd H. unfold multi_main in H. apply sbind_inv in H as [(i1 & [text roots] & H1 & H)|[(e & _ & [=])|[_ [=]]]].
  apply sbind_inv in H as [(i2 & d & H2 & H)|[(e & _ & [=])|[_ [=]]]]. unfold getwd in H2. rewrite Hcwd in H2. injection H2 as <- <-.
  apply sbind_inv in H as [(i3 & mc & H3 & H)|[(e & _ & [=])|[_ [=]]]]. injection H3 as <- Hmc. cbn [fst snd] in Hmc.
  apply sbind_inv in H as [(i4 & cls & H4 & H)|[(e & _ & [=])|[_ [=]]]].
  destruct (multi_target E (mc_map mc) target (mkMr cls i4)) as [s o] eqn:H5. injection H as <- ->.
  destruct (multi_config_ok _ _ _ _ Hmc) as (mc0 & Hmc0 & Hmap & Hroots & _ & _ & Hdis & Htext & _).
  pose proof (mr_session_new E mc now2 i1 i4 cls H4) as Hs0.
  unfold multi_target in H5. apply sbind_inv in H5 as [(s1 & [] & H5 & H)|[(e & _ & [=])|[_ [=]]]].
  assert (mr_session E mc now2 s1) as Hs1 by (pose proof (mr_session_call E mc now2 _ MrRefresh Hs0) as Hx; cbn [mr_call] in Hx; by rewrite H5 in Hx).
  apply sbind_inv in H as [(s2 & [info repos] & H6 & H)|[(e & _ & [=])|[_ [=]]]]. cbn [fst snd] in H.
  assert (mr_session E mc now2 s2) as Hs2 by (pose proof (mr_session_call E mc now2 _ (MrGetTargetInfo target) Hs1) as Hx; cbn [mr_call] in Hx; by rewrite H6 in Hx).
  destruct (mr_session_inv E _ _ _ Hs2) as (_ & Hmade2 & _).
  destruct (download_stored _ _ _ _ _ _ _ _ (fun n cl Hn => let '(ex_intro _ _ (ex_intro _ _ (ex_intro _ _ (conj _ (conj _ (conj _ (conj _ (conj _ (conj Hx _))))))))) := Hmade2 n cl Hn in eq_trans Hx Hdis) H) as [Hmt Hst].
  destruct (info_asked _ _ _ _ _ _ H6) as (m & pat & r & sa & sb & Hm & Hp & Hg & Hr & _ & Hc & Hask).
  destruct (ask_answer E mc now2 target s1 sa r sb info Hs1 Hc Hask) as (cl & role & md & _ & (root & u & l & Hroot & _ & Htr & _) & Hse & Hl & Hmd & Hen & _).
  rewrite Hroots in Hroot. cbn in Hroot.
  destruct (session_calls E _ _ _ Hse) as (t0 & Ht0 & _). destruct (proj1 (tm_new_spec _ _ _) Ht0) as (r1 & Hr1 & _).
  destruct (session_authentic _ _ _ r1 target role md info data Hse Hr1 Hl Hmd Hen Hmt) as [Hrs Ha]. rewrite Htr in Hr1.
  exists i1, text, roots, mc0, m, pat, r, root, r1. rewrite <- Hmap. done.
Qed.

(** ** The root file *)
Definition safe (q : string) (X : Prop) (c : config) : Prop := X \/ ((forall role, q <> cache_name c role) /\ forall tf p, target_file_path E c tf = Ok p -> p <> q).
Lemma leaves_call q X c a w w' o : call_api E c a w = (w', o) -> ~ tmp_name E q -> safe q X c -> (forall tf p u, a = DownloadTarget tf p u -> p = "") -> leaves q X (w_io w) (w_io w').
Proof.
  intros H Ht Hs Hp. destruct (call_disk E c a w w' o H) as (evs & Hh & Hd). destruct Hs as [HX|[Hc Hf]]; [exists evs; split; [by split|by right]|].
  destruct a as [|tgt|tf p u|tf p]; try (eapply leaves_api; [exact H|done|done|done]). exists evs. split; [by split|]. intros d' Hcr. rewrite (Hp _ _ _ eq_refl) in H.
  destruct (download_crash E c tf "" u w w' _ evs d' q H Hh Hcr) as [?|(_ & data & _ & Hff & _)]; [by left|]. destruct Hff as [[Hx _]|[_ Hx]]; [done|by destruct (Hf _ _ Hx)].
Qed.
Definition all_safe q X (s : mrstate) : Prop := forall n cl, mr_clients s !! n = Some cl -> safe q X (cl_cfg cl).
Definition keeps {A} q X (m : MR A) : Prop := forall s, all_safe q X s -> all_safe q X (fst (m s)) /\ leaves q X (mr_io s) (mr_io (fst (m s))).
Lemma keeps_bind {A B} q X (m : MR A) (k : A -> MR B) : keeps q X m -> (forall a, keeps q X (k a)) -> keeps q X (sbind m k).
Proof.
  intros Hm Hk s Hs. unfold sbind. destruct (Hm s Hs) as [H1 H2]. destruct (m s) as [s1 [a| |]]; cbn in *; [|done|done]. destruct (Hk a s1 H1) as [H3 H4]. split; [done|by eapply leaves_trans].
Qed.
Lemma keeps_att {A B} q X (m : MR A) (k : A + gerr -> MR B) : keeps q X m -> (forall a, keeps q X (k a)) -> keeps q X (satt m k).
Proof.
  intros Hm Hk s Hs. unfold satt. destruct (Hm s Hs) as [H1 H2]. destruct (m s) as [s1 [a|e|]]; cbn in *; [| |done].
  - destruct (Hk (inl a) s1 H1) as [H3 H4]. split; [done|by eapply leaves_trans].
  - destruct (Hk (inr e) s1 H1) as [H3 H4]. split; [done|by eapply leaves_trans].
Qed.
Lemma keeps_out {A} q X (o : outcome A) : keeps q X (sout o).
Proof. intros s Hs. split; [done|apply leaves_refl]. Qed.
Lemma keeps_ret {A} q X (a : A) : keeps q X (sret a).
Proof. intros s Hs. split; [done|apply leaves_refl]. Qed.
Lemma keeps_client {A} q X repo (f : config -> M A) : ~ tmp_name E q -> (forall c w, exists a, fst (f c w) = fst (call_api E c a w) /\ forall tf p u, a = DownloadTarget tf p u -> p = "") -> keeps q X (on_client repo f).
Proof.
  intros Ht Hf s Hs. unfold on_client. destruct (mr_clients s !! repo) as [cl|] eqn:Ecl; [|split; [done|apply leaves_refl]].
  destruct (Hf (cl_cfg cl) (mkWorld (cl_trusted cl) (mr_io s))) as (a & Ha & Hp). destruct (f (cl_cfg cl) _) as [w o]. cbn [fst mr_io mr_clients] in *. split.
  - intros n cl' Hn. cbn [mr_clients] in Hn. apply lookup_insert_Some in Hn as [[<- <-]|[_ Hn]]; [exact (Hs _ _ Ecl)|exact (Hs _ _ Hn)].
  - destruct (call_api E (cl_cfg cl) a (mkWorld (cl_trusted cl) (mr_io s))) as [w' o'] eqn:Hc. cbn [fst] in Ha. subst w'. exact (leaves_call q X _ _ _ _ _ Hc Ht (Hs _ _ Ecl) Hp).
Qed.
Lemma keeps_ask q X target repo : ~ tmp_name E q -> keeps q X (ask E target repo).
Proof. intros Ht. apply keeps_client; [done|]. intros c w. exists (GetTargetInfo target). cbn [call_api]. by destruct (get_target_info E c target w). Qed.
Lemma keeps_collect q X repos target gs : ~ tmp_name E q -> keeps q X (collect E repos target gs).
Proof.
  intros Ht. revert gs. induction repos as [|r repos IH]; intros gs; cbn [collect]; [apply keeps_ret|]. apply keeps_att; [by apply (keeps_ask q X target r)|]. intros [[i|]|e]; [apply IH|apply keeps_out|apply IH].
Qed.
Lemma keeps_try_paths q X m ps target : ~ tmp_name E q -> keeps q X (try_paths E m ps target).
Proof.
  intros Ht. induction ps as [|p ps IH]; cbn [try_paths]; [apply keeps_ret|]. apply keeps_bind; [apply keeps_out|]. intros []; [|exact IH]. apply keeps_bind; [by apply keeps_collect|]. intros gs. apply keeps_bind; [apply keeps_out|].
  intros [g|]; [apply keeps_ret|]. destruct (mp_terminating m); [apply keeps_ret|exact IH].
Qed.
Lemma keeps_try_mappings q X ms target : ~ tmp_name E q -> keeps q X (try_mappings E ms target).
Proof. intros Ht. induction ms as [|[m|] ms IH]; cbn [try_mappings]; [apply keeps_out| |apply keeps_out]. apply keeps_bind; [by apply keeps_try_paths|]. intros [g|[]]; [apply keeps_ret|apply keeps_out|exact IH]. Qed.
Lemma keeps_refresh_list q X l : ~ tmp_name E q -> keeps q X (mr_refresh_list E l).
Proof. intros Ht. induction l as [|n l IH]; cbn [mr_refresh_list]; [apply keeps_ret|]. apply keeps_bind; [|done]. apply keeps_client; [done|]. intros c w. by exists Refresh. Qed.
Lemma keeps_refresh q X : ~ tmp_name E q -> keeps q X (mr_refresh E).
Proof.
  intros Ht s Hs. unfold mr_refresh, iterate. cbv beta iota. set (s1 := mkMr _ _). assert (leaves q X (mr_io s) (mr_io s1)) as H1 by (eapply leaves_silent; [by apply explains_log|by apply Forall_singleton]).
  match goal with |- context [mr_refresh_list E ?l s1] => destruct (keeps_refresh_list q X l Ht s1 Hs) as [H2 H3] end. split; [done|by eapply leaves_trans].
Qed.
Lemma keeps_download q X repos tf u : ~ tmp_name E q -> keeps q X (mr_download_target E repos tf "" u).
Proof.
  intros Ht. induction repos as [|r repos IH]; cbn [mr_download_target]; [apply keeps_out|]. apply keeps_bind.
  - apply keeps_client; [done|]. intros c w. exists (FindCachedTarget tf ""). cbn [call_api]. by destruct (lift (find_cached_target E c tf "") w).
  - intros x. destruct (_ && _); [apply keeps_ret|]. apply keeps_att; [|intros [y|e]; [apply keeps_ret|exact IH]]. apply keeps_client; [done|]. intros c w. exists (DownloadTarget tf "" u). cbn [call_api]. destruct (download_target E c tf "" u w). split; [done|]. by intros ? ? ? [= _ <- _].
Qed.
Lemma keeps_target q X rm target : ~ tmp_name E q -> keeps q X (multi_target E rm target).
Proof. intros Ht. unfold multi_target. apply keeps_bind; [by apply keeps_refresh|]. intros _. apply keeps_bind; [by apply keeps_try_mappings|]. intros g. by apply keeps_download. Qed.

(** the clients are made without touching it *)
Lemma init_client_leaves q X now mc name urls i i' o : ~ tmp_name E q -> (forall c, c_metadata_dir c = path_join [mc_metadata_dir mc; name] -> X \/ forall role, q <> cache_name c role) -> init_client E now mc name urls i = (i', o) -> leaves q X i i'.
Proof.
  intros Ht Hc H. unfold init_client in H. destruct (slist urls) as [|u l]; [injection H as <- _; apply leaves_refl|]. destruct (mget (mc_roots mc) name) as [root|]; [|injection H as <- _; apply leaves_refl]. cbn zeta in H.
  assert (forall p i i' o, mkdir_all E p i = (i', o) -> leaves q X i i') as Hmk by (intros p j j' oj Hj; unfold mkdir_all in Hj; injection Hj as <- _; eapply leaves_silent; [by apply explains_log|by apply Forall_singleton]).
  assert (forall i i' o, mr_ensure_paths E mc i = (i', o) -> leaves q X i i') as Hen.
  { intros j j' oj Hj. unfold mr_ensure_paths in Hj. destruct (mc_disable_cache mc); [injection Hj as <- _; apply leaves_refl|]. apply sbind_inv in Hj as [(j1 & [] & H1 & H2)|[(e & H1 & _)|[H1 _]]]; [|by eapply Hmk..]. eapply leaves_trans; by eapply Hmk. }
  apply sbind_inv in H as [(i1 & [] & H1 & H)|[(e & H1 & _)|[H1 _]]]; apply Hen in H1; [|done..]. apply sbind_inv in H as [(i2 & c & H2 & H)|[(e & H2 & _)|[H2 _]]]; injection H2 as <- H2; [|done..].
  eapply leaves_trans; [exact H1|]. set (c' := mkConfig _ _ _ _ _ _ _ _ _ _ _ _ _ _) in H.
  assert (forall i i' o, updater_new E c' now i = (i', o) -> leaves q X i i') as Hnw.
  { intros j j' oj Hj. destruct (Hc c' eq_refl) as [HX|Hq]; [|by eapply leaves_new]. destruct (new_disk E c' now j j' oj Hj) as (evs & Hh & Hd). exists evs. split; [by split|by right]. }
  apply satt_inv in H as [(i3 & t & H3 & H)|[(i3 & e & H3 & H)|[H3 _]]]; [| |by eapply Hnw]; injection H as <- _; by eapply Hnw.
Qed.
Lemma init_clients_leaves q X now mc l : ~ tmp_name E q -> (forall name urls c, (name, urls) ∈ l -> c_metadata_dir c = path_join [mc_metadata_dir mc; name] -> X \/ forall role, q <> cache_name c role) -> forall acc i i' o, init_clients E now mc l acc i = (i', o) -> leaves q X i i'.
Proof.
  intros Ht. induction l as [|[name urls] l IH]; intros Hc acc i i' o H; cbn [init_clients] in H; [injection H as <- _; apply leaves_refl|].
  apply sbind_inv in H as [(i1 & cl & H1 & H)|[(e & H1 & _)|[H1 _]]]; (eapply init_client_leaves in H1; [|done|intros c; apply (Hc name urls c); by left]); [|done..].
  eapply leaves_trans; [exact H1|]. eapply IH; [|exact H]. intros name' urls' c Hin. apply (Hc name' urls' c). by right.
Qed.
(** metadata of a repository stay out of the way, if its name is not ".." *)
Lemma repo_not_anchor cwd c repo role : has_prefix "/" cwd = true -> ".." ∉ split_on "/" repo -> c_metadata_dir c = path_join [path_join [cwd; "metadata"]; repo] -> anchor cwd <> cache_name c role.
Proof.
  intros Hr Hn Hd H. apply (f_equal segs) in H. unfold cache_name in H. rewrite Hd in H.
  assert (forall s, (forallb (fun x => negb (String.eqb x "..")) (split_on "/" s) = true) -> ".." ∉ split_on "/" s) as Hb.
  { intros s Hs Hx. rewrite forallb_forall in Hs. apply elem_of_list_In in Hx. by specialize (Hs _ Hx). }
  assert (plain_name (json_of (query_escape role))) as Hpl by apply json_plain, query_escape_no_slash.
  assert (".." ∉ split_on "/" (json_of (query_escape role))) as Hj.
  { rewrite split_on_slash_free by apply Hpl. intros Hx%elem_of_list_singleton. destruct Hpl as (_ & _ & Hdd & _). by destruct (Hdd (eq_sym Hx)). }
  unfold anchor in H. rewrite join_segs in H by (done || by apply Hb). rewrite join_segs in H by (try done; repeat apply join_rooted; done).
  rewrite join_segs in H by (try done; by apply join_rooted). rewrite join_segs in H by (try done; by apply Hb). rewrite <- !app_assoc in H. apply app_inv_head in H. cbn in H. done.
Qed.
(** verified targets metadata list a name that leads out of the directory *)
Definition leads_out (cwd : string) (d : disk) (now : Z) : Prop := exists root (r : metadata root_t) tg name tf, d !! anchor cwd = Some root /\ document root r /\ root_signs r "root" r /\ published_under r now tg /\ entry tg name (Some tf) /\ ".." ∈ split_on "/" name.
Lemma boot_leaves url turl now i i' o cwd : e_cwd E = Some cwd -> has_prefix "/" cwd = true -> bootstrap E url turl now i = (i', o) ->
  leaves (anchor cwd) (leads_out cwd (io_disk i) now) i i' /\ forall m roots repo, o = Ok (m, roots) -> is_Some (roots !! repo) -> leads_out cwd (io_disk i) now \/ ".." ∉ split_on "/" repo.
Proof.
  intros Hcwd Hp H. destruct (boot_run _ _ _ _ _ _ _ _ Hcwd H) as [[Hno Hl]|(root & r & tg & c & l & w & w' & Hroot & Hdoc & Hrs & Hpub & Hlp & Hl1 & Hloop & ->)].
  { split; [refine (leaves_impl _ _ _ _ _ _ Hl); intros []|]. intros m roots repo ->. by destruct (Hno (m, roots)). }
  apply loop_run in Hloop as (_ & Hl2 & Hok); [|unfold path_join; destruct cwd; [rewrite filter_cons_False by (intros Hx; by apply Hx)|rewrite filter_cons_True by done]; apply path_clean_ne].
  assert (forall name tf, (name, Some tf) ∈ l -> leads_out cwd (io_disk i) now \/ ".." ∉ split_on "/" name) as Hname.
  { intros name tf Hin. destruct (decide (".." ∈ split_on "/" name)) as [Hx|?]; [left|by right]. exists root, r, tg, name, tf. repeat (split; [done|]). split; [by apply (listed_entry tg l)|done]. }
  split.
  - eapply leaves_trans; [refine (leaves_impl _ _ _ _ _ _ Hl1); intros []|]. eapply leaves_impl; [|apply Hl2]. intros (name & tf & Hin & Hq). destruct (Hname name tf Hin) as [?|Hn]; [done|]. by destruct (place_not_anchor cwd name Hp Hn).
  - intros m roots repo -> [data Hd]. destruct (Hok m roots eq_refl) as (_ & _ & Hr & _). destruct (Hr _ _ Hd) as [Hx|(name & tf & Hin & _ & [Hrep _] & _)]; [cbn [snd] in Hx; by rewrite lookup_empty in Hx|].
    destruct (Hname name tf Hin) as [?|Hn]; [by left|right]. intros Hx. apply Hn. destruct Hrep as [-> |[rest ->]]; [done|]. rewrite split_on_app. apply elem_of_app. by left.
Qed.
Lemma multi_leaves url turl target now1 now2 i i' o cwd : e_cwd E = Some cwd -> has_prefix "/" cwd = true -> plain_base (path_join [cwd; "download"]) = true -> multi_main E url turl target now1 now2 i = (i', o) ->
  leaves (anchor cwd) (leads_out cwd (io_disk i) now1) i i'.
Proof.
  intros Hcwd Hp Hb H. set (X := leads_out cwd (io_disk i) now1). pose proof (anchor_not_tmp E cwd) as Htmp. unfold multi_main in H.
  apply sbind_inv in H as [(i1 & [text roots] & H1 & H)|[(e & H1 & ->)|[H1 ->]]]; destruct (boot_leaves _ _ _ _ _ _ _ Hcwd Hp H1) as [Hl1 Hnames]; [|exact Hl1..].
  eapply leaves_trans; [exact Hl1|]. clear Hl1 H1.
  apply sbind_inv in H as [(i2 & d & H2 & H)|[(e & H2 & ->)|[H2 ->]]]; unfold getwd in H2; rewrite Hcwd in H2; injection H2 as <- H2; [|done..]. subst d.
  apply sbind_inv in H as [(i3 & mc & H3 & H)|[(e & H3 & ->)|[H3 ->]]]; injection H3 as <- Hmc; [|apply leaves_refl..]. cbn [fst snd] in Hmc.
  destruct (multi_config_ok _ _ _ _ Hmc) as (mc0 & _ & _ & _ & Hmd & Htd & _ & _ & Hhas).
  assert (forall name urls c, mget (rm_repos (mc_map mc)) name = Some urls -> c_metadata_dir c = path_join [mc_metadata_dir mc; name] -> X \/ forall role, anchor cwd <> cache_name c role) as Hc.
  { intros name urls c Hm Hdir. destruct (Hnames text roots name eq_refl (Hhas _ _ Hm)) as [?|Hn]; [by left|right]. intros role. rewrite Hmd in Hdir. by eapply repo_not_anchor. }
  assert (forall i o, mr_new E now2 mc i = o -> leaves (anchor cwd) X i (fst o)) as Hnew.
  { intros j [j' oj] Hj. cbn [fst]. unfold mr_new in Hj. apply sbind_inv in Hj as [(j1 & l & Hj1 & Hj)|[(e & Hj1 & _)|[Hj1 _]]]; unfold iterate in Hj1; [|done..]. injection Hj1 as <- <-.
    eapply leaves_trans; [|eapply init_clients_leaves; [exact Htmp| |exact Hj]]; [eapply leaves_silent; [by apply explains_log|by apply Forall_singleton]|]. intros name urls c Hin. eapply Hc. apply mlist_mget. rewrite (e_order_perm E) in Hin. exact Hin. }
  apply sbind_inv in H as [(i4 & cls & H4 & H)|[(e & H4 & ->)|[H4 ->]]]; specialize (Hnew _ _ H4) as Hl4; cbn [fst] in Hl4; [|done..]. eapply leaves_trans; [exact Hl4|].
  destruct (multi_target E (mc_map mc) target (mkMr cls i4)) as [s os] eqn:H5. injection H as <- ->.
  destruct (keeps_target (anchor cwd) X (mc_map mc) target Htmp (mkMr cls i4)) as [_ Hk]; [|by rewrite H5 in Hk].
  intros n cl Hn. cbn [mr_clients] in Hn. destruct (mr_session_inv E mc now2 _ (mr_session_new E mc now2 i1 i4 cls H4)) as (_ & Hmade & _).
  destruct (Hmade n cl Hn) as (root & u & l & _ & Hm & _ & _ & Hdir & _ & Htdir). destruct (Hc _ _ _ Hm Hdir) as [?|Hq]; [by left|right]. split; [done|].
  intros tf p Htf. assert (c_targets_dir (cl_cfg cl) = path_join [cwd; "download"]) as Htd'.
  { rewrite Htdir, Htd. destruct (String.eqb_spec (path_join [cwd; "download"]) "") as [Hx|_]; [|done]. exfalso. revert Hx. unfold path_join. rewrite !filter_cons_True by (done || by intros ->). apply path_clean_ne. }
  exact (target_spares_root E cwd _ tf p Hp Hb Htd' Htf).
Qed.
End Main.
