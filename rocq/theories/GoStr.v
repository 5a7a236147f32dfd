(** * String functions of the Go standard library used by the code *)
From stdpp Require Import base gmap strings list.
From Coq Require Import ZArith Lia Ascii String.
From Verif Require Import GoBase.
Open Scope Z_scope.

(** ** Bytes *)
Definition bz (c : ascii) : Z := Z.of_N (N_of_ascii c).
Definition zb (z : Z) : ascii := ascii_of_N (Z.to_N z).
Definition is_digit (c : ascii) : bool := (48 <=? bz c) && (bz c <=? 57).
Definition is_lower (c : ascii) : bool := (97 <=? bz c) && (bz c <=? 122).
Definition is_upper (c : ascii) : bool := (65 <=? bz c) && (bz c <=? 90).

Definition s1 (c : ascii) : string := String c EmptyString.

Fixpoint string_rev_app (a b : string) : string :=
  match a with EmptyString => b | String c a => string_rev_app a (String c b) end.
Definition rev_string (s : string) : string := string_rev_app s "".

Fixpoint concat_str (l : list string) : string :=
  match l with [] => "" | x :: l => x +:+ concat_str l end.

(** [strings.Join] *)
Fixpoint join_str (sep : string) (l : list string) : string :=
  match l with
  | [] => ""
  | [x] => x
  | x :: l => x +:+ sep +:+ join_str sep l
  end.

(** [strings.HasPrefix], and the remainder after the prefix *)
Fixpoint strip_prefix (p s : string) : option string :=
  match p, s with
  | EmptyString, _ => Some s
  | String a p, String b s => if Ascii.eqb a b then strip_prefix p s else None
  | _, _ => None
  end.
Definition has_prefix (p s : string) : bool :=
  match strip_prefix p s with Some _ => true | None => false end.
(** [strings.HasSuffix] *)
Definition has_suffix (p s : string) : bool := has_prefix (rev_string p) (rev_string s).

(** [strings.Split(s, sep)] for a one-byte separator *)
Fixpoint split_on (sep : ascii) (s : string) : list string :=
  match s with
  | EmptyString => [EmptyString]
  | String c s =>
      if Ascii.eqb c sep then EmptyString :: split_on sep s
      else match split_on sep s with
           | [] => [s1 c]
           | x :: l => String c x :: l
           end
  end.

(** [strings.Cut(s, sep)] for a one-byte separator: [Some (before, after)] if found *)
Fixpoint cut_on (sep : ascii) (s : string) : option (string * string) :=
  match s with
  | EmptyString => None
  | String c s =>
      if Ascii.eqb c sep then Some (EmptyString, s)
      else match cut_on sep s with
           | Some (a, b) => Some (String c a, b)
           | None => None
           end
  end.

Fixpoint string_all (f : ascii -> bool) (s : string) : bool :=
  match s with EmptyString => true | String c s => f c && string_all f s end.
Fixpoint string_any (f : ascii -> bool) (s : string) : bool :=
  match s with EmptyString => false | String c s => f c || string_any f s end.

(** [s[:n]] and [s[n:]] *)
Fixpoint str_take (n : nat) (s : string) : string :=
  match n, s with
  | S n, String c s => String c (str_take n s)
  | _, _ => EmptyString
  end.
Fixpoint str_drop (n : nat) (s : string) : string :=
  match n, s with
  | S n, String c s => str_drop n s
  | _, _ => s
  end.

(** ** Hexadecimal ([encoding/hex]) *)
Definition hexdig (n : Z) : ascii := if n <? 10 then zb (48 + n) else zb (87 + n).
Definition hexdig_up (n : Z) : ascii := if n <? 10 then zb (48 + n) else zb (55 + n).
Definition hexval (c : ascii) : option Z :=
  if is_digit c then Some (bz c - 48)
  else if (97 <=? bz c) && (bz c <=? 102) then Some (bz c - 87)
  else if (65 <=? bz c) && (bz c <=? 70) then Some (bz c - 55)
  else None.
(** [hex.EncodeToString] *)
Fixpoint hex_encode (s : string) : string :=
  match s with
  | EmptyString => EmptyString
  | String c s => String (hexdig (bz c / 16)) (String (hexdig (bz c mod 16)) (hex_encode s))
  end.
(** [hex.DecodeString]: [None] is an error (odd length or a byte that is no hex digit) *)
Fixpoint hex_decode (s : string) : option string :=
  match s with
  | EmptyString => Some EmptyString
  | String a (String b s) =>
      match hexval a, hexval b, hex_decode s with
      | Some x, Some y, Some r => Some (String (zb (16 * x + y)) r)
      | _, _, _ => None
      end
  | String _ EmptyString => None
  end.

(** ** Numbers ([strconv]) *)
(** digits of [n >= 0] in base [b], most significant first, at least one digit *)
Fixpoint digits_rev (fuel : nat) (b n : Z) : list Z :=
  match fuel with
  | O => []
  | S f => if n <? b then [n] else (n mod b) :: digits_rev f b (n / b)
  end.
Definition digits_of (b n : Z) : list Z := rev (digits_rev (S (Z.to_nat (Z.log2 n))) b n).
Definition string_of_digits (l : list Z) : string := string_of_list_ascii (map hexdig l).
(** [strconv.FormatInt(n, base)] *)
Definition fmt_base (b n : Z) : string :=
  if n <? 0 then "-" +:+ string_of_digits (digits_of b (- n)) else string_of_digits (digits_of b n).
Definition fmt_dec (n : Z) : string := fmt_base 10 n.
Definition fmt_hex (n : Z) : string := fmt_base 16 n.

Fixpoint zeros (n : nat) : string := match n with O => "" | S n => String "0" (zeros n) end.
(** [fmt.Sprintf("%0*x", w, n)] for [n >= 0] *)
Definition fmt_hex_pad (w : Z) (n : Z) : string :=
  let s := fmt_hex n in zeros (Z.to_nat (w - str_len s)) +:+ s.

(** value of a digit string in base [b]; [None] if empty or if it has another character *)
Fixpoint parse_digits_acc (b : Z) (s : string) (acc : Z) : option Z :=
  match s with
  | EmptyString => Some acc
  | String c s =>
      match hexval c with
      | Some d => if d <? b then parse_digits_acc b s (acc * b + d) else None
      | None => None
      end
  end.
Definition parse_nat_base (b : Z) (s : string) : option Z :=
  match s with EmptyString => None | _ => parse_digits_acc b s 0 end.
(** [strconv.ParseInt(s, base, 64)] (explicit base: no prefix, no underscores): optional sign, digits,
    value in the int64 range *)
Definition parse_int (b : Z) (s : string) : option Z :=
  let r := match s with
           | String "+" t => parse_nat_base b t
           | String "-" t => option_map Z.opp (parse_nat_base b t)
           | _ => parse_nat_base b s
           end in
  match r with Some z => if in_int64 z then Some z else None | None => None end.

(** ** [url.QueryEscape] *)
Definition url_unreserved (c : ascii) : bool :=
  is_digit c || is_lower c || is_upper c ||
  (bz c =? 45) || (bz c =? 95) || (bz c =? 46) || (bz c =? 126).
Fixpoint query_escape (s : string) : string :=
  match s with
  | EmptyString => EmptyString
  | String c s =>
      if url_unreserved c then String c (query_escape s)
      else if Ascii.eqb c " " then String "+" (query_escape s)
      else String "%" (String (hexdig_up (bz c / 16)) (String (hexdig_up (bz c mod 16)) (query_escape s)))
  end.

(** ** [path.Clean], [path.Join] (= [filepath.Clean], [filepath.Join] on Unix) *)
Definition clean_step (rooted : bool) (stack : list string) (seg : string) : list string :=
  if String.eqb seg "" || String.eqb seg "." then stack
  else if String.eqb seg ".." then
    match stack with
    | top :: rest => if String.eqb top ".." then ".." :: stack else rest
    | [] => if rooted then [] else [".."]
    end
  else seg :: stack.
Definition path_clean (p : string) : string :=
  if String.eqb p "" then "."
  else
    let rooted := has_prefix "/" p in
    let segs := rev (fold_left (clean_step rooted) (split_on "/" p) []) in
    let body := join_str "/" segs in
    if rooted then "/" +:+ body
    else if String.eqb body "" then "." else body.
(** [filepath.Join(elems...)]: empty elements are ignored, the rest joined and cleaned *)
Definition path_join (l : list string) : string :=
  let l' := filter (fun s => s ≠ "") l in
  match l' with [] => "" | _ => path_clean (join_str "/" l') end.

(** ** [base64.URLEncoding.EncodeToString] (with padding) *)
Definition b64url_char (n : Z) : ascii :=
  if n <? 26 then zb (65 + n)
  else if n <? 52 then zb (71 + n)
  else if n <? 62 then zb (n - 4)
  else if n =? 62 then "-"%char else "_"%char.
Fixpoint b64url_encode (s : string) : string :=
  match s with
  | EmptyString => EmptyString
  | String a EmptyString =>
      let n := bz a * 65536 in
      String (b64url_char (n / 262144)) (String (b64url_char (n / 4096 mod 64)) "==")
  | String a (String b EmptyString) =>
      let n := bz a * 65536 + bz b * 256 in
      String (b64url_char (n / 262144))
        (String (b64url_char (n / 4096 mod 64)) (String (b64url_char (n / 64 mod 64)) "="))
  | String a (String b (String c s)) =>
      let n := bz a * 65536 + bz b * 256 + bz c in
      String (b64url_char (n / 262144))
        (String (b64url_char (n / 4096 mod 64))
          (String (b64url_char (n / 64 mod 64))
            (String (b64url_char (n mod 64)) (b64url_encode s))))
  end.

(** ** UTF-8 ([unicode/utf8]) *)
(** the bytes of U+FFFD *)
Definition utf8_fffd : string := String (zb 239) (String (zb 191) (String (zb 189) "")).
Definition utf8_cont (c : ascii) : bool := (128 <=? bz c) && (bz c <=? 191).
(** [utf8.DecodeRune] on a string that starts with a byte >= 0x80: [Some n] is the length (2..4) of a
    valid encoding, [None] an invalid one (which Go treats as one byte, U+FFFD). *)
Definition utf8_len (s : string) : option nat :=
  match s with
  | String a (String b r) =>
      let x := bz a in let y := bz b in
      if (194 <=? x) && (x <=? 223) then (if utf8_cont b then Some 2%nat else None)
      else
        match r with
        | String c r' =>
            if (224 <=? x) && (x <=? 239) then
              if (if x =? 224 then 160 <=? y else 128 <=? y) && (if x =? 237 then y <=? 159 else y <=? 191)
                 && utf8_cont c then Some 3%nat else None
            else
              match r' with
              | String d _ =>
                  if (240 <=? x) && (x <=? 244) then
                    if (if x =? 240 then 144 <=? y else 128 <=? y) && (if x =? 244 then y <=? 143 else y <=? 191)
                       && utf8_cont c && utf8_cont d then Some 4%nat else None
                  else None
              | _ => None
              end
        | _ => None
        end
  | _ => None
  end.
(** encoding of a code point ([utf8.AppendRune]); surrogates and out-of-range values become U+FFFD *)
Definition utf8_encode (r : Z) : string :=
  if r <? 128 then s1 (zb r)
  else if r <? 2048 then String (zb (192 + r / 64)) (s1 (zb (128 + r mod 64)))
  else if ((55296 <=? r) && (r <=? 57343)) || (1114111 <? r) then utf8_fffd
  else if r <? 65536 then
    String (zb (224 + r / 4096)) (String (zb (128 + r / 64 mod 64)) (s1 (zb (128 + r mod 64))))
  else String (zb (240 + r / 262144)) (String (zb (128 + r / 4096 mod 64))
         (String (zb (128 + r / 64 mod 64)) (s1 (zb (128 + r mod 64))))).
(** valid UTF-8 *)
Fixpoint utf8_valid_fuel (fuel : nat) (s : string) : bool :=
  match fuel with
  | O => true
  | S f =>
      match s with
      | EmptyString => true
      | String c r =>
          if bz c <? 128 then utf8_valid_fuel f r
          else match utf8_len s with
               | Some n => utf8_valid_fuel f (str_drop n s)
               | None => false
               end
      end
  end.
Definition utf8_valid (s : string) : bool := utf8_valid_fuel (String.length s) s.

(** sanity checks of the definitions above *)
Example gostr_tests :
  (fmt_dec 1203, fmt_dec (-7), fmt_dec 0, fmt_hex_pad 3 15, parse_int 16 "-0F", parse_int 10 "12a",
   path_join ["/a/b"; "../x"; ""], path_clean "a/../../b", path_join [""; "x"], query_escape "a b/c%é",
   split_on "/" "a//b", b64url_encode "hello", hex_encode "az", has_suffix "/" "ab/")
  = ("1203", "-7", "0", "00f", Some (-15), None, "/a/x", "../b", "x",
     "a+b%2Fc%25%C3%A9", ["a"; ""; "b"], "aGVsbG8=", "617a", true).
Proof. vm_compute. reflexivity. Qed.
