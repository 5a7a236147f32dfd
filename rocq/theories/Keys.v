(** * Keys: metadata/keys.go, and the cryptographic functions it uses *)
From stdpp Require Import base gmap strings list.
From Coq Require Import ZArith Ascii String.
From Verif Require Import GoBase GoStr Json GoTime Types Marshal.
Open Scope Z_scope.

(** [crypto.PublicKey] values; RSA and ECDSA keys are identified by their PKIX DER bytes *)
Inductive pubkey :=
  | PkRSA (der : string)
  | PkECDSA (der : string)
  | PkEd25519 (raw : string)
  | PkOther (tag : string).
Global Instance pubkey_eq_dec : EqDecision pubkey. Proof. solve_decision. Defined.

(** The external cryptographic functions.  Nothing is assumed about them except the digest lengths; theorems that
    need more say so. *)
Class Crypto := {
  sha256 : string -> string;
  sha512 : string -> string;
  pem_decode : string -> option pubkey;       (* cryptoutils.UnmarshalPEMToPublicKey *)
  pem_encode : pubkey -> option string;       (* cryptoutils.MarshalPublicKeyToPEM *)
  pkix_ok : pubkey -> bool;                   (* x509.MarshalPKIXPublicKey succeeds (RSA, ECDSA) *)
  raw_verify : pubkey -> string -> string -> bool;  (* key, message, signature: Verifier.VerifySignature is nil *)
  sha256_length : forall s, String.length (sha256 s) = 32%nat;
  sha512_length : forall s, String.length (sha512 s) = 64%nat }.

(** keys.go:28-36 *)
Definition KeyTypeEd25519 : string := "ed25519".
Definition KeyTypeECDSA_COMPAT : string := "ecdsa-sha2-nistp256".
Definition KeyTypeECDSA : string := "ecdsa".
Definition KeyTypeRSA : string := "rsa".
Definition KeySchemeEd25519 : string := "ed25519".
Definition KeySchemeECDSA : string := "ecdsa-sha2-nistp256".
Definition KeySchemeRSA : string := "rsassa-pss-sha256".

Section Keys.
Context {CR : Crypto}.

(** keys.go:39-82.  [x509.MarshalPKIXPublicKey] accepts ed25519 keys of any length. *)
Definition to_public_key (k : key) : outcome pubkey :=
  if String.eqb (k_type k) KeyTypeRSA then
    match pem_decode (kv_public (k_val k)) with
    | None => Err (EOther "PEM")
    | Some (PkRSA der) => if pkix_ok (PkRSA der) then Ok (PkRSA der) else Err (EOther "x509")
    | Some _ => Err (EOther "invalid rsa public key")
    end
  else if String.eqb (k_type k) KeyTypeECDSA || String.eqb (k_type k) KeyTypeECDSA_COMPAT then
    match pem_decode (kv_public (k_val k)) with
    | None => Err (EOther "PEM")
    | Some (PkECDSA der) => if pkix_ok (PkECDSA der) then Ok (PkECDSA der) else Err (EOther "x509")
    | Some _ => Err (EOther "invalid ecdsa public key")
    end
  else if String.eqb (k_type k) KeyTypeEd25519 then
    match hex_decode (kv_public (k_val k)) with
    | None => Err (EOther "encoding/hex")
    | Some raw => Ok (PkEd25519 raw)
    end
  else Err (EOther "unsupported public key type").

(** keys.go:85-112 *)
Definition key_from_public_key (p : pubkey) : outcome key :=
  match p with
  | PkRSA _ => match pem_encode p with
               | Some s => Ok (mkKey KeyTypeRSA KeySchemeRSA (mkKeyVal s None) "" None)
               | None => Err (EOther "PEM") end
  | PkECDSA _ => match pem_encode p with
                 | Some s => Ok (mkKey KeyTypeECDSA KeySchemeECDSA (mkKeyVal s None) "" None)
                 | None => Err (EOther "PEM") end
  | PkEd25519 raw => Ok (mkKey KeyTypeEd25519 KeySchemeEd25519 (mkKeyVal (hex_encode raw) None) "" None)
  | PkOther _ => Err (EOther "unsupported public key type")
  end.

(** keys.go:115-126: the cached value if present; a key whose canonical form cannot be computed (numbers that are
    no int64 in unrecognised fields) panics. *)
Definition key_id (k : key) : outcome string :=
  if String.eqb (k_id k) "" then
    match encode_canonical (key_marshal k) with
    | Ok data => Ok (hex_encode (sha256 data))
    | _ => Panic
    end
  else Ok (k_id k).
(** the key after a call of [ID()] that returned [i]: the identifier is cached in it *)
Definition key_cache (i : string) (k : key) : key := mkKey (k_type k) (k_scheme k) (k_val k) i (k_unrec k).

(** sigstore LoadVerifier + VerifySignature: [ed25519.Verify] panics for a key that is not 32 bytes long *)
Definition verify_signature (p : pubkey) (msg sig : string) : outcome bool :=
  match p with
  | PkEd25519 raw => if Nat.eqb (String.length raw) 32 then Ok (raw_verify p msg sig) else Panic
  | _ => Ok (raw_verify p msg sig)
  end.
End Keys.
