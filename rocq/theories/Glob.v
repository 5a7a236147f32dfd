(** * [filepath.Match] (Go 1.21, path/filepath/match.go, Unix) *)
From stdpp Require Import base gmap strings list.
From Coq Require Import ZArith Ascii String.
From Verif Require Import GoBase GoStr.
Open Scope Z_scope.

Definition slash : ascii := "/"%char.
Definition ErrBadPattern : gerr := EOther "syntax error in pattern".

(** [utf8.DecodeRuneInString] on a non-empty string: code point and width; invalid encodings give U+FFFD, width 1 *)
Definition decode_rune (s : string) : Z * nat :=
  match s with
  | EmptyString => (65533, 0%nat)
  | String a r =>
      if bz a <? 128 then (bz a, 1%nat)
      else match utf8_len s, r with
           | Some 2%nat, String b _ => ((bz a - 192) * 64 + (bz b - 128), 2%nat)
           | Some 3%nat, String b (String c _) =>
               ((bz a - 224) * 4096 + (bz b - 128) * 64 + (bz c - 128), 3%nat)
           | Some 4%nat, String b (String c (String d _)) =>
               ((bz a - 240) * 262144 + (bz b - 128) * 4096 + (bz c - 128) * 64 + (bz d - 128), 4%nat)
           | _, _ => (65533, 1%nat)
           end
  end.

(** scanChunk: (star, chunk, rest) *)
Fixpoint scan_stars (p : string) : bool * string :=
  match p with
  | String c r => if bz c =? 42 then (true, snd (scan_stars r)) else (false, p)
  | EmptyString => (false, p)
  end.
Fixpoint scan_body (inrange : bool) (p : string) : string * string :=
  match p with
  | EmptyString => (EmptyString, EmptyString)
  | String c r =>
      if bz c =? 92 then
        match r with
        | String d r' => let '(a, b) := scan_body inrange r' in (String c (String d a), b)
        | EmptyString => (s1 c, EmptyString)
        end
      else if bz c =? 91 then let '(a, b) := scan_body true r in (String c a, b)
      else if bz c =? 93 then let '(a, b) := scan_body false r in (String c a, b)
      else if (bz c =? 42) && negb inrange then (EmptyString, p)
      else let '(a, b) := scan_body inrange r in (String c a, b)
  end.
Definition scan_chunk (p : string) : bool * string * string :=
  let '(star, p') := scan_stars p in
  let '(chunk, rest) := scan_body false p' in (star, chunk, rest).

(** getEsc: a possibly escaped character of a class; [None] is ErrBadPattern.  Bad also if nothing follows. *)
Definition get_esc (chunk : string) : option (Z * string) :=
  match chunk with
  | EmptyString => None
  | String c r =>
      if (bz c =? 45) || (bz c =? 93) then None
      else
        let chunk' := if bz c =? 92 then r else chunk in
        match chunk' with
        | EmptyString => None
        | String _ _ =>
            let '(ru, n) := decode_rune chunk' in
            let rest := str_drop n chunk' in
            if ((ru =? 65533) && (Nat.eqb n 1)) || String.eqb rest "" then None else Some (ru, rest)
        end
  end.
(** the ranges of a class up to the closing bracket: whether [r] is in one of them, and the rest of the chunk *)
Fixpoint match_ranges (fuel : nat) (r : Z) (first matched : bool) (chunk : string) : option (bool * string) :=
  match fuel with
  | O => None
  | S f =>
      match chunk with
      | String c rest =>
          if (bz c =? 93) && negb first then Some (matched, rest)
          else
            match get_esc chunk with
            | None => None
            | Some (lo, chunk1) =>
                match chunk1 with
                | String d rest1 =>
                    if bz d =? 45 then
                      match get_esc rest1 with
                      | None => None
                      | Some (hi, chunk2) =>
                          match_ranges f r false (matched || ((lo <=? r) && (r <=? hi))) chunk2
                      end
                    else match_ranges f r false (matched || (lo =? r)) chunk1
                | EmptyString => None
                end
            end
      | EmptyString => None
      end
  end.

(** matchChunk: [None] is ErrBadPattern, [Some None] no match, [Some (Some rest)] a match.  [failed] as in Go: the
    pattern is still checked for syntax after the match has failed. *)
Fixpoint match_chunk_loop (fuel : nat) (failed : bool) (chunk s : string) : option (option string) :=
  match chunk with
  | EmptyString => Some (if failed then None else Some s)
  | String c rest =>
      match fuel with
      | O => None
      | S f =>
          let failed := failed || String.eqb s "" in
          if bz c =? 91 then
            let '(r, s') := if failed then (0, s) else let '(r, n) := decode_rune s in (r, str_drop n s) in
            let '(negated, chunk1) :=
              match rest with String d rest1 => if bz d =? 94 then (true, rest1) else (false, rest)
                            | EmptyString => (false, rest) end in
            match match_ranges (S (String.length chunk1)) r true false chunk1 with
            | None => None
            | Some (m, chunk2) => match_chunk_loop f (failed || Bool.eqb m negated) chunk2 s'
            end
          else if bz c =? 63 then
            let '(failed', s') :=
              if failed then (failed, s)
              else (match s with String x _ => Ascii.eqb x slash | EmptyString => false end,
                    str_drop (snd (decode_rune s)) s) in
            match_chunk_loop f failed' rest s'
          else
            let lit := if bz c =? 92 then match rest with EmptyString => None | String d r' => Some (d, r') end
                       else Some (c, rest) in
            match lit with
            | None => None
            | Some (d, rest') =>
                let '(failed', s') :=
                  if failed then (failed, s)
                  else (match s with String x _ => negb (Ascii.eqb d x) | EmptyString => true end, str_drop 1 s) in
                match_chunk_loop f failed' rest' s'
            end
      end
  end.
Definition match_chunk (chunk s : string) : option (option string) :=
  match_chunk_loop (String.length chunk) false chunk s.

(** the loop over start positions after a star: [None] ErrBadPattern, [Some None] nothing found *)
Fixpoint star_loop (chunk : string) (last : bool) (name : string) : option (option string) :=
  match name with
  | EmptyString => Some None
  | String x name' =>
      if Ascii.eqb x slash then Some None
      else
        match match_chunk chunk name' with
        | None => None
        | Some (Some t) => if last && negb (String.eqb t "") then star_loop chunk last name' else Some (Some t)
        | Some None => star_loop chunk last name'
        end
  end.
(** syntax check of the rest of the pattern before reporting "no match" *)
Fixpoint check_rest (fuel : nat) (p : string) : outcome bool :=
  match p with
  | EmptyString => Ok false
  | _ =>
      match fuel with
      | O => Ok false
      | S f => let '(_, chunk, rest) := scan_chunk p in
               match match_chunk chunk "" with None => Err ErrBadPattern | Some _ => check_rest f rest end
      end
  end.
Fixpoint match_loop (fuel : nat) (p name : string) : outcome bool :=
  match p with
  | EmptyString => Ok (String.eqb name "")
  | _ =>
      match fuel with
      | O => Ok false
      | S f =>
          let '(star, chunk, rest) := scan_chunk p in
          if star && String.eqb chunk "" then Ok (negb (string_any (Ascii.eqb slash) name))
          else
            let last := String.eqb rest "" in
            match match_chunk chunk name with
            | None => Err ErrBadPattern
            | Some r =>
                match (match r with
                       | Some t => if String.eqb t "" || negb last then Some t else None
                       | None => None end) with
                | Some t => match_loop f rest t
                | None =>
                    if star then
                      match star_loop chunk last name with
                      | None => Err ErrBadPattern
                      | Some (Some t) => match_loop f rest t
                      | Some None => check_rest f rest
                      end
                    else check_rest f rest
                end
            end
      end
  end.
(** [filepath.Match(pattern, name)].  Every scanned chunk consumes at least one byte, so the fuel suffices. *)
Definition glob_match (p name : string) : outcome bool := match_loop (String.length p) p name.

Example glob_tests :
  map (fun pn => glob_match pn.1 pn.2)
    [("*.txt", "a.txt"); ("*.txt", "a/b.txt"); ("a?c", "abc"); ("a?c", "a/c"); ("[a-c]x*", "bxyz"); ("[^a-c]x", "bx");
     ("a\*", "a*"); ("a\*", "ab"); ("[", "a"); ("b[", "a"); ("*", ""); ("", "a"); ("a*b*c", "axxbyyc"); ("*a*", "bcd"); ("[]a]", "]"); ("[a-]", "a"); ("*??", "€")]
  = [Ok true; Ok false; Ok true; Ok false; Ok true; Ok false; Ok true; Ok false; Err ErrBadPattern; Err ErrBadPattern; Ok true; Ok false; Ok true; Ok false; Err ErrBadPattern; Err ErrBadPattern; Ok true].
Proof. vm_compute. reflexivity. Qed.
