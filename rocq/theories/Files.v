(** * Indented output, and metadata files: metadata/metadata.go:155-203 *)
From stdpp Require Import base gmap strings list.
From Coq Require Import ZArith Ascii String.
From Verif Require Import GoBase GoStr Json Types Marshal Keys Metadata TrustedMetadata Updater.
Open Scope Z_scope.

(** json.Indent(dst, src, "", "\t") of encoding/json (indent.go of Go 1.21).  Simplification: whether a byte belongs to a
    string literal is tracked by two flags instead of the scanner ([q]: inside a literal, [e]: after a backslash), and
    the error for an invalid [src] is left out, since ToBytes only indents what json.Marshal wrote.
    [n] is needIndent, [d] is depth. *)
Fixpoint tabs (d : nat) : string := match d with O => "" | S d => String "009" (tabs d) end.
Definition newline (d : nat) : string := String "010" (tabs d).
Definition opens (c : ascii) : bool := (bz c =? 123) || (bz c =? 91).
Definition closes (c : ascii) : bool := (bz c =? 125) || (bz c =? 93).
Fixpoint json_indent (q e n : bool) (d : nat) (s : string) : string :=
  match s with
  | EmptyString => EmptyString
  | String c r =>
      if q then
        String c (if e then json_indent true false n d r
                  else if bz c =? 92 then json_indent true true n d r
                  else json_indent (negb (bz c =? 34)) false n d r)
      else if is_ws c then json_indent false false n d r
      else
        let '(lead, d) := if n && negb (closes c) then (newline (S d), S d) else ("", d) in
        lead +:+
        (if opens c then String c (json_indent false false true d r)
         else if bz c =? 44 then String c (newline d +:+ json_indent false false false d r)
         else if bz c =? 58 then String c (String " " (json_indent false false false d r))
         else if closes c then
           if n then String c (json_indent false false false d r)
           else newline (pred d) +:+ String c (json_indent false false false (pred d) r)
         else String c (json_indent (bz c =? 34) false false d r))
  end.

(** ToBytes(pretty): metadata.go:187-193; json.MarshalIndent indents what json.Marshal gives *)
Definition to_bytes_fmt {T} `{RoleTy T} (pretty : bool) (m : metadata T) : outcome string :=
  let! b := to_bytes m in Ok (if pretty then json_indent false false false 0 b else b).
(** ToFile: metadata.go:196-203 *)
Definition to_file {T} `{RoleTy T} (E : env) (m : metadata T) (name : string) (pretty : bool) : IO unit :=
  do b := sout (to_bytes_fmt pretty m) in write_file E name b.
(** FromFile: metadata.go:156-173; os.Open and io.ReadAll are one step.  The result is what is assigned to the receiver. *)
Definition from_file {T} `{RoleTy T} (E : env) (name : string) : IO (metadata T) :=
  do data := read_file E name in sout (from_bytes data).
(** TargetFiles.FromFile: metadata.go:447-461 *)
Definition targetfile_from_file {CR : Crypto} (E : env) (path : string) (algs : list string) : IO targetfile :=
  do data := read_file E path in sout (targetfile_from_bytes path data algs).
