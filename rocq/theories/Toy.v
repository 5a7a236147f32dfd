(** * A concrete (insecure) instance of the cryptographic functions, only used to exhibit concrete cases *)
From stdpp Require Import base gmap strings list.
From Coq Require Import ZArith Ascii String.
From Verif Require Import GoBase GoStr Json GoTime Types Marshal Keys Metadata TrustedMetadata.
Open Scope Z_scope.

(** a feedback shift register over four bytes (cheap to evaluate inside the kernel) *)
Definition xor8 (x y : ascii) : ascii :=
  match x, y with Ascii a b c d e f g h, Ascii a' b' c' d' e' f' g' h' =>
    Ascii (xorb a a') (xorb b b') (xorb c c') (xorb d d') (xorb e e') (xorb f f') (xorb g g') (xorb h h') end.
Definition rot8 (x : ascii) : ascii := match x with Ascii a b c d e f g h => Ascii h a b c d e f g end.
Fixpoint mix (a b c d : ascii) (s : string) : ascii * ascii * ascii * ascii :=
  match s with
  | EmptyString => (a, b, c, d)
  | String x s => mix (xor8 (rot8 d) x) a (xor8 b d) c s
  end.
Fixpoint stream (n : nat) (a b c d : ascii) : string :=
  match n with O => "" | S n => String d (stream n (rot8 d) a (xor8 b d) c) end.
Definition toy_hash (n : nat) (s : string) : string := let '(a, b, c, d) := mix "t" "o" "y" "h" s in stream n a b c d.
Lemma stream_length n a b c d : String.length (stream n a b c d) = n.
Proof. revert a b c d; induction n as [|n IH]; intros a b c d; cbn; [reflexivity|]. rewrite IH; reflexivity. Qed.
Lemma toy_hash_length n s : String.length (toy_hash n s) = n.
Proof. unfold toy_hash. destruct (mix _ _ _ _ s) as [[[a b] c] d]. apply stream_length. Qed.
Definition pk_bytes (p : pubkey) : string :=
  match p with PkRSA d => "R" +:+ d | PkECDSA d => "E" +:+ d | PkEd25519 r => "D" +:+ r | PkOther t => "O" +:+ t end.
Definition toy_sig (p : pubkey) (msg : string) : string := toy_hash 32 (pk_bytes p +:+ ":" +:+ msg).

Definition toy_crypto : Crypto := {|
  sha256 := toy_hash 32;
  sha512 := toy_hash 64;
  pem_decode := fun s => match s with
                         | String "R" d => Some (PkRSA d)
                         | String "E" d => Some (PkECDSA d)
                         | _ => None end;
  pem_encode := fun p => match p with PkRSA _ | PkECDSA _ => Some (pk_bytes p) | _ => None end;
  pkix_ok := fun _ => true;
  raw_verify := fun p msg sig => String.eqb sig (toy_sig p msg);
  sha256_length := fun s => toy_hash_length 32 s;
  sha512_length := fun s => toy_hash_length 64 s |}.

Definition toy_signer (p : pubkey) : signer := mkSigner (Ok p) (fun msg => Ok (toy_sig p msg)).
Definition toy_key (p : pubkey) : key :=
  match key_from_public_key (CR := toy_crypto) p with Ok k => k | _ => key_zero end.
Definition toy_id (p : pubkey) : string :=
  match key_id (CR := toy_crypto) (toy_key p) with Ok i => i | _ => "" end.

(** three keys *)
Definition pkA : pubkey := PkEd25519 "aaaaaaaaaaaaaaaaaaaaaaaaaaaaaaaa".
Definition pkB : pubkey := PkECDSA "bbbb".
Definition pkC : pubkey := PkRSA "cccc".

(** 2030-01-01T00:00:00Z and a clock reading before it *)
Definition t2030 : gotime := mkTime 2030 1 1 0 0 0 0 0.
