(** * Specification: what may depend on the iteration order of Go's maps *)
From stdpp Require Import base gmap strings list.
From Coq Require Import ZArith String.
From Verif Require Import GoBase Types Marshal Keys Metadata TrustedMetadata Fetcher Updater SpecBasic SpecTrusted SpecUpdater.
Open Scope Z_scope.

(** the same network, files, clock and random numbers with other map iteration orders *)
Definition reordered (E : env) (order : forall A, trace -> list (string * A) -> list (string * A)) (perm : forall A tr l, order A tr l ≡ₚ l) : env :=
  mkEnv (e_net E) (e_io E) (e_partial E) (e_cwd E) (e_rand E) (e_url_join E) order perm.

(** what the calls of an updater answer *)
Inductive answer := Refreshed (o : outcome unit) | Info (o : outcome (option targetfile)) | File (o : outcome (string * string)).
Definition panics (a : answer) : Prop := a = Refreshed Panic \/ a = Info Panic \/ a = File Panic.
(** the same result; two errors need not be the same *)
Definition alike_outcome {A} (o1 o2 : outcome A) : Prop :=
  match o1, o2 with
  | Ok a, Ok b => a = b
  | Err _, Err _ => True
  | Panic, Panic => True
  | _, _ => False
  end.
Definition alike (a b : answer) : Prop :=
  match a, b with
  | Refreshed o1, Refreshed o2 => alike_outcome o1 o2
  | Info o1, Info o2 => alike_outcome o1 o2
  | File o1, File o2 => alike_outcome o1 o2
  | _, _ => False
  end.

Section SpecOrder.
Context {CR : Crypto} (E : env) (c : config).
Definition ask (a : api) (w : world) : world * answer :=
  match a with
  | Refresh => let '(w', o) := refresh E c w in (w', Refreshed o)
  | GetTargetInfo p => let '(w', o) := get_target_info E c p w in (w', Info o)
  | DownloadTarget tf p u => let '(w', o) := download_target E c tf p u w in (w', File o)
  | FindCachedTarget tf p => let '(w', o) := lift (find_cached_target E c tf p) w in (w', File o)
  end.
(** calls one after the other, as far as the program gets without a panic *)
Fixpoint ask_all (l : list api) (w : world) : world * list answer :=
  match l with
  | [] => (w, [])
  | a :: l => let '(w1, r) := ask a w in
              match r with
              | Refreshed Panic | Info Panic | File Panic => (w1, [r])
              | _ => let '(w2, rs) := ask_all l w1 in (w2, r :: rs)
              end
  end.
End SpecOrder.

(** no role delegates the path to two roles *)
Definition no_choice {CR : Crypto} (t : trusted) (path : string) : Prop :=
  forall (role : string) m n1 b1 n2 b2, t_targets t !! role = Some m -> delegated m path n1 b1 -> delegated m path n2 b2 -> n1 = n2.
(** at most one hash is listed: there are no two URLs to choose from *)
Definition one_hash (tf : targetfile) : Prop := forall a1 h1 a2 h2, lists (tf_hashes tf) a1 h1 -> lists (tf_hashes tf) a2 h2 -> a1 = a2.
(** the call leaves nothing for the map order to decide; the delegations are those of the roles loaded at the end *)
Definition choiceless {CR : Crypto} (c : config) (t : trusted) (a : api) : Prop :=
  match a with
  | GetTargetInfo p => no_choice t p
  | DownloadTarget tf _ _ => c_prefix_hash c = true -> one_hash tf
  | _ => True
  end.
