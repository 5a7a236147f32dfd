(** * Sessions of the concrete client that only receive certain bytes, found by computation *)
From stdpp Require Import base gmap strings list.
From Coq Require Import ZArith Lia String.
From Verif Require Import GoBase Types Marshal Keys Metadata TrustedMetadata Fetcher Updater SpecBasic SpecTrusted SpecUpdater SpecResilience Toy Examples ExamplesUpdater.
Open Scope Z_scope.

Lemma shown_check {T} `{RoleTy T} (L : list string) (f : metadata T -> bool) : forallb (fun d => match from_bytes d with Ok m => f m | _ => true end) L = true ->
  forall data m, data ∈ L -> from_bytes data = Ok m -> f m = true.
Proof. intros Hf data m Hd Hm. rewrite forallb_forall in Hf. specialize (Hf data). rewrite Hm in Hf. apply Hf. by apply elem_of_list_In. Qed.
Definition event_in (L : list string) (e : event) : bool := match e with EvGet _ _ (Ok d) | EvRead _ (Ok d) => bool_decide (d ∈ L) | _ => true end.
Lemma received_in L tr : forallb (event_in L) tr = true -> forall data, received tr data -> data ∈ L.
Proof. rewrite forallb_forall. intros H data [(u & len & Hx)|(p & Hx)]; apply elem_of_list_In, H in Hx; by apply bool_decide_eq_true in Hx. Qed.
Lemma shown_case {CR : Crypto} L E c i a (P : world -> Prop) :
  match updater_new E c ex_now i with
  | (i', Ok t) => forallb (event_in L) (io_trace (w_io (fst (call_api E c a (mkWorld t i'))))) = true /\ P (fst (call_api E c a (mkWorld t i')))
  | _ => False end -> exists w, shown_session (fun data => data ∈ L) E c ex_now w /\ P w.
Proof.
  destruct (updater_new E c ex_now i) as [i' [t| |]] eqn:Hn; [|intros []..]. intros [H1 H2]. exists (fst (call_api E c a (mkWorld t i'))). split; [|exact H2].
  eapply (shown_api _ _ _ _ _ a); [eapply shown_new; exact Hn|apply surjective_pairing|]. exact (received_in _ _ H1).
Qed.
