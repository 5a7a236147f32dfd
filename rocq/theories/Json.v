(** * JSON: trees, text parser and printer, [encoding/json] decoding into [any], canonical JSON *)
From stdpp Require Import base gmap strings list.
From Coq Require Import ZArith Lia Ascii String.
From Verif Require Import GoBase GoStr.
Open Scope Z_scope.

(** JSON values as documents: number literals are kept as text (Go decodes them differently depending
    on the destination), objects keep order and duplicates.  [JEsc] is a string whose literal contained a
    backslash escape; Go hands the raw literal to [UnmarshalJSON] methods, so [HexBytes] and [time.Time]
    see the difference. *)
#[local] Unset Elimination Schemes.
Inductive json :=
  | JNull
  | JBool (b : bool)
  | JNum (lit : string)
  | JStr (s : string)
  | JEsc (s : string)
  | JArr (l : list json)
  | JObj (l : list (string * json)).
#[local] Set Elimination Schemes.

(** induction principle through the nested lists *)
Section json_ind.
  Variable P : json -> Prop.
  Hypothesis HNull : P JNull.
  Hypothesis HBool : forall b, P (JBool b).
  Hypothesis HNum : forall l, P (JNum l).
  Hypothesis HStr : forall s, P (JStr s).
  Hypothesis HEsc : forall s, P (JEsc s).
  Hypothesis HArr : forall l, Forall P l -> P (JArr l).
  Hypothesis HObj : forall l, Forall (fun kv => P kv.2) l -> P (JObj l).
  Fixpoint json_ind (j : json) : P j :=
    match j with
    | JNull => HNull | JBool b => HBool b | JNum l => HNum l | JStr s => HStr s | JEsc s => HEsc s
    | JArr l => HArr l ((fix go l : Forall P l :=
        match l with [] => Forall_nil_2 _ | x :: l => Forall_cons_2 _ _ _ (json_ind x) (go l) end) l)
    | JObj l => HObj l ((fix go l : Forall (fun kv => P kv.2) l :=
        match l with [] => Forall_nil_2 _ | x :: l => Forall_cons_2 _ _ _ (json_ind x.2) (go l) end) l)
    end.
End json_ind.

Global Instance json_eq_dec : EqDecision json.
Proof.
  refine (fix go (a b : json) : Decision (a = b) :=
    let _ : EqDecision json := @go in
    match a, b return Decision (a = b) with
    | JNull, JNull => left eq_refl
    | JBool a, JBool b => cast_if (decide (a = b))
    | JNum a, JNum b => cast_if (decide (a = b))
    | JStr a, JStr b => cast_if (decide (a = b))
    | JEsc a, JEsc b => cast_if (decide (a = b))
    | JArr a, JArr b => cast_if (decide (a = b))
    | JObj a, JObj b => cast_if (decide (a = b))
    | _, _ => right _
    end); congruence.
Defined.

(** ** Byte-wise order of strings ([sort.Strings], order of map keys in [json.Marshal]) *)
Fixpoint str_ltb (a b : string) : bool :=
  match a, b with
  | EmptyString, EmptyString => false
  | EmptyString, String _ _ => true
  | String _ _, EmptyString => false
  | String x a, String y b => if bz x <? bz y then true else if bz y <? bz x then false else str_ltb a b
  end.

(** insertion into a key-sorted association list, replacing an equal key *)
Fixpoint ins {V} (k : string) (v : V) (l : list (string * V)) : list (string * V) :=
  match l with
  | [] => [(k, v)]
  | (k', v') :: l' =>
      if str_ltb k k' then (k, v) :: l
      else if str_ltb k' k then (k', v') :: ins k v l'
      else (k, v) :: l'
  end.
(** sorted members, the last duplicate wins: what decoding into a Go map and iterating in key order gives *)
Definition obj_norm {V} (l : list (string * V)) : list (string * V) :=
  fold_left (fun acc kv => ins kv.1 kv.2 acc) l [].
(** members of a Go map in key order *)
Definition map_sorted {V} (m : gmap string V) : list (string * V) := obj_norm (map_to_list m).

(** ** Text parser ([encoding/json]: scanner.go, decode.go) *)
Definition is_ws (c : ascii) : bool := (bz c =? 32) || (bz c =? 9) || (bz c =? 10) || (bz c =? 13).
Fixpoint skip_ws (s : string) : string :=
  match s with String c r => if is_ws c then skip_ws r else s | EmptyString => EmptyString end.

Definition hex4 (a b c d : ascii) : option Z :=
  match hexval a, hexval b, hexval c, hexval d with
  | Some a, Some b, Some c, Some d => Some (((a * 16 + b) * 16 + c) * 16 + d)
  | _, _, _, _ => None
  end.

Definition str_res := option (string * bool * string).
Definition push (p : string) (esc : bool) (r : str_res) : str_res :=
  match r with Some (s, e, rest) => Some (p +:+ s, esc || e, rest) | None => None end.

(** the part of a string literal after the opening quote: decoded text, whether it had escapes, rest *)
Fixpoint parse_str (s : string) : str_res :=
  match s with
  | EmptyString => None
  | String c r =>
      if bz c =? 34 then Some (EmptyString, false, r)
      else if bz c <? 32 then None
      else if bz c =? 92 then
        match r with
        | String e r1 =>
            if bz e =? 117 then
              match r1 with
              | String a (String b (String c (String d r2))) =>
                  match hex4 a b c d with
                  | None => None
                  | Some u =>
                      if (55296 <=? u) && (u <=? 57343) then
                        match r2 with
                        | String q0 (String q1 (String a' (String b' (String c' (String d' r3))))) =>
                            match (if (bz q0 =? 92) && (bz q1 =? 117) then hex4 a' b' c' d' else None) with
                            | Some u2 =>
                                if (u <=? 56319) && (56320 <=? u2) && (u2 <=? 57343)
                                then push (utf8_encode ((u - 55296) * 1024 + (u2 - 56320) + 65536)) true (parse_str r3)
                                else push utf8_fffd true (parse_str r2)
                            | None => push utf8_fffd true (parse_str r2)
                            end
                        | _ => push utf8_fffd true (parse_str r2)
                        end
                      else push (utf8_encode u) true (parse_str r2)
                  end
              | _ => None
              end
            else if (bz e =? 34) || (bz e =? 92) || (bz e =? 47) then push (s1 e) true (parse_str r1)
            else if bz e =? 98 then push (s1 (zb 8)) true (parse_str r1)
            else if bz e =? 102 then push (s1 (zb 12)) true (parse_str r1)
            else if bz e =? 110 then push (s1 (zb 10)) true (parse_str r1)
            else if bz e =? 114 then push (s1 (zb 13)) true (parse_str r1)
            else if bz e =? 116 then push (s1 (zb 9)) true (parse_str r1)
            else None
        | EmptyString => None
        end
      else if bz c <? 128 then push (s1 c) false (parse_str r)
      else
        match utf8_len s with
        | Some 2%nat =>
            match r with String x1 r1 => push (String c (s1 x1)) false (parse_str r1) | _ => None end
        | Some 3%nat =>
            match r with
            | String x1 (String x2 r2) => push (String c (String x1 (s1 x2))) false (parse_str r2)
            | _ => None end
        | Some 4%nat =>
            match r with
            | String x1 (String x2 (String x3 r3)) =>
                push (String c (String x1 (String x2 (s1 x3)))) false (parse_str r3)
            | _ => None end
        | _ => push utf8_fffd false (parse_str r)
        end
  end.

(** maximal prefix of digits *)
Fixpoint take_digits (s : string) : string * string :=
  match s with
  | String c r => if is_digit c then let '(d, t) := take_digits r in (String c d, t) else (EmptyString, s)
  | EmptyString => (EmptyString, EmptyString)
  end.

(** number literal, RFC 8259 grammar: optional minus, integer part without superfluous leading zeros,
    optional fraction, optional exponent *)
Definition parse_num (s : string) : option (string * string) :=
  let '(sign, s0) := match s with String "-" r => ("-", r) | _ => ("", s) end in
  let '(ip, s1') := take_digits s0 in
  (* a leading zero ends the integer part *)
  let '(ip, s1') := match ip with
                    | String "0" (String _ _ as t) => ("0", t +:+ s1')
                    | _ => (ip, s1')
                    end in
  match ip with
  | EmptyString => None
  | _ =>
      match (match s1' with
             | String "." r => match take_digits r with
                               | (EmptyString, _) => None
                               | (d, t) => Some ("." +:+ d, t)
                               end
             | _ => Some ("", s1')
             end) with
      | None => None
      | Some (fp, s2) =>
          let expo (e : ascii) (r : string) :=
            let '(sg, r') := match r with
                             | String "+" t => ("+", t) | String "-" t => ("-", t) | _ => ("", r) end in
            match take_digits r' with
            | (EmptyString, _) => None
            | (d, t) => Some (String e (sg +:+ d), t)
            end in
          match (match s2 with
                 | String "e" r => expo "e"%char r
                 | String "E" r => expo "E"%char r
                 | _ => Some ("", s2)
                 end) with
          | None => None
          | Some (ep, s3) => Some (sign +:+ ip +:+ fp +:+ ep, s3)
          end
      end
  end.

(** decode.go/scanner.go: maxNestingDepth *)
Definition max_nesting_depth : Z := 10000.

Fixpoint parse_val (fuel : nat) (depth : Z) (s : string) : option (json * string) :=
  match fuel with
  | O => None
  | S f =>
      match skip_ws s with
      | String c r =>
          if bz c =? 123 then (* { *)
            if max_nesting_depth <=? depth then None else
            match skip_ws r with
            | String c' r' as rr =>
                if bz c' =? 125 then Some (JObj [], r')
                else match parse_members f (depth + 1) rr with
                     | Some (l, t) => Some (JObj l, t) | None => None end
            | EmptyString => None
            end
          else if bz c =? 91 then (* [ *)
            if max_nesting_depth <=? depth then None else
            match skip_ws r with
            | String c' r' as rr =>
                if bz c' =? 93 then Some (JArr [], r')
                else match parse_elems f (depth + 1) rr with
                     | Some (l, t) => Some (JArr l, t) | None => None end
            | EmptyString => None
            end
          else if bz c =? 34 then
            match parse_str r with
            | Some (s, false, t) => Some (JStr s, t)
            | Some (s, true, t) => Some (JEsc s, t)
            | None => None
            end
          else if (bz c =? 45) || is_digit c then
            match parse_num (String c r) with
            | Some (l, t) => Some (JNum l, t) | None => None end
          else
            match strip_prefix "null" (String c r), strip_prefix "true" (String c r),
                  strip_prefix "false" (String c r) with
            | Some t, _, _ => Some (JNull, t)
            | _, Some t, _ => Some (JBool true, t)
            | _, _, Some t => Some (JBool false, t)
            | _, _, _ => None
            end
      | EmptyString => None
      end
  end
with parse_members (fuel : nat) (depth : Z) (s : string) : option (list (string * json) * string) :=
  match fuel with
  | O => None
  | S f =>
      match skip_ws s with
      | String q r =>
          if bz q =? 34 then
            match parse_str r with
            | Some (k, _, r1) =>
                match skip_ws r1 with
                | String c r2 =>
                    if bz c =? 58 then
                      match parse_val f depth r2 with
                      | Some (v, r3) =>
                          match skip_ws r3 with
                          | String c r4 =>
                              if bz c =? 44 then
                                match parse_members f depth r4 with
                                | Some (l, t) => Some ((k, v) :: l, t)
                                | None => None end
                              else if bz c =? 125 then Some ([(k, v)], r4)
                              else None
                          | EmptyString => None
                          end
                      | None => None
                      end
                    else None
                | EmptyString => None
                end
            | None => None
            end
          else None
      | EmptyString => None
      end
  end
with parse_elems (fuel : nat) (depth : Z) (s : string) : option (list json * string) :=
  match fuel with
  | O => None
  | S f =>
      match parse_val f depth s with
      | Some (v, r3) =>
          match skip_ws r3 with
          | String c r4 =>
              if bz c =? 44 then
                match parse_elems f depth r4 with
                | Some (l, t) => Some (v :: l, t)
                | None => None end
              else if bz c =? 93 then Some ([v], r4)
              else None
          | EmptyString => None
          end
      | None => None
      end
  end.

(** [checkValid] + tree: the document as a whole *)
Definition parse_json (s : string) : option json :=
  match parse_val (S (2 * String.length s)) 0 s with
  | Some (j, t) => match skip_ws t with EmptyString => Some j | _ => None end
  | None => None
  end.

(** ** Printer ([json.Marshal], compact, HTML escaping on, Go 1.21) *)
Definition hex4_print (n : Z) : string :=
  String (hexdig (n / 4096 mod 16)) (String (hexdig (n / 256 mod 16))
    (String (hexdig (n / 16 mod 16)) (s1 (hexdig (n mod 16))))).
Definition esc_u (n : Z) : string := String "\" (String "u" (hex4_print n)).
Definition esc_ascii (c : ascii) : string :=
  let n := bz c in
  if n =? 34 then String "\" (s1 c)
  else if n =? 92 then String "\" (s1 c)
  else if n =? 10 then String "\" "n"
  else if n =? 13 then String "\" "r"
  else if n =? 9 then String "\" "t"
  else if (n <? 32) || (n =? 60) || (n =? 62) || (n =? 38) then esc_u n
  else s1 c.
(** body of a string literal; invalid UTF-8 becomes �, U+2028/U+2029 are escaped *)
Fixpoint esc_str (s : string) : string :=
  match s with
  | EmptyString => EmptyString
  | String c r =>
      if bz c <? 128 then esc_ascii c +:+ esc_str r
      else
        match utf8_len s with
        | Some 2%nat =>
            match r with String x1 r1 => String c (String x1 (esc_str r1)) | _ => EmptyString end
        | Some 3%nat =>
            match r with
            | String x1 (String x2 r2) =>
                if (bz c =? 226) && (bz x1 =? 128) && ((bz x2 =? 168) || (bz x2 =? 169))
                then esc_u (8232 + (bz x2 - 168)) +:+ esc_str r2
                else String c (String x1 (String x2 (esc_str r2)))
            | _ => EmptyString end
        | Some 4%nat =>
            match r with
            | String x1 (String x2 (String x3 r3)) =>
                String c (String x1 (String x2 (String x3 (esc_str r3))))
            | _ => EmptyString end
        | _ => esc_u 65533 +:+ esc_str r
        end
  end.
Definition dquote : string := s1 (zb 34).
Definition quote_str (s : string) : string := dquote +:+ esc_str s +:+ dquote.

Fixpoint print_json (j : json) : string :=
  match j with
  | JNull => "null"
  | JBool true => "true"
  | JBool false => "false"
  | JNum l => l
  | JStr s | JEsc s => quote_str s
  | JArr l => "[" +:+ join_str "," (map print_json l) +:+ "]"
  | JObj l => "{" +:+ join_str "," (map (fun kv => quote_str kv.1 +:+ ":" +:+ print_json kv.2) l) +:+ "}"
  end.

(** ** float64 (decoding numbers into [any] and printing them again) *)
(** A finite non-negative double is (q, k), meaning q * 2^k. *)
Definition num_split (lit : string) : option (bool * Z * Z) :=
  let '(neg, s) := match lit with String "-" r => (true, r) | _ => (false, lit) end in
  let '(ip, r) := take_digits s in
  let '(fp, r) := match r with String "." t => take_digits t | _ => ("", r) end in
  let ex := match r with
            | EmptyString => Some 0
            | String c t => if (Ascii.eqb c "e" || Ascii.eqb c "E") then
                (match t with
                 | String "+" u => parse_nat_base 10 u
                 | String "-" u => option_map Z.opp (parse_nat_base 10 u)
                 | _ => parse_nat_base 10 t
                 end) else None
            end in
  match parse_nat_base 10 (ip +:+ fp), ex with
  | Some m, Some e => Some (neg, m, e - str_len fp)
  | _, _ => None
  end.
(** round to nearest, ties to even, of n/d (n >= 0, d > 0) *)
Definition div_even (n d : Z) : Z :=
  let q := n / d in let r := n mod d in
  if 2 * r <? d then q else if d <? 2 * r then q + 1 else if Z.even q then q else q + 1.
Definition pow2 (k : Z) : Z := 2 ^ (Z.max k 0).
(** correctly rounded double of n/d, for values below the overflow threshold *)
Definition f64_round (n d : Z) : Z * Z :=
  if n =? 0 then (0, 0)
  else
    let k0 := Z.log2 n - Z.log2 d - 52 in
    (* n/d >= 2^(52+k0) ? *)
    let k1 := if (d * pow2 (52 + k0)) <=? (n * pow2 (- (52 + k0))) then k0 else k0 - 1 in
    let k := Z.max k1 (-1074) in
    let q := div_even (n * pow2 (- k)) (d * pow2 k) in
    if q =? 2 ^ 53 then (2 ^ 52, k + 1) else (q, k).
(** values from this one on round to infinity *)
Definition f64_limit : Z := 2 ^ 1024 - 2 ^ 970.
(** [strconv.ParseFloat(lit, 64)]: sign and value; [None] on overflow (range error).  Very large and very small
    exponents are decided without computing the power. *)
Definition f64_of (lit : string) : option (bool * (Z * Z)) :=
  match num_split lit with
  | None => None
  | Some (neg, m, e) =>
      if m =? 0 then Some (neg, (0, 0))
      else
        let mag := str_len (fmt_dec m) + e in
        if 400 <? mag then None
        else if mag <? -400 then Some (neg, (0, 0))
        else
          let n := m * 10 ^ (Z.max e 0) in
          let d := 10 ^ (Z.max (- e) 0) in
          if f64_limit * d <=? n then None else Some (neg, f64_round n d)
  end.
(** q*2^k as a fraction *)
Definition f64_num (v : Z * Z) : Z := v.1 * pow2 v.2.
Definition f64_den (v : Z * Z) : Z := pow2 (- v.2).
(** floor(log10 (n/d)) for n, d > 0 *)
Fixpoint log10_small (fuel : nat) (n d : Z) : Z :=
  match fuel with O => 0 | S f => if d <=? n then 0 else log10_small f (n * 10) d - 1 end.
Definition log10_floor (n d : Z) : Z :=
  if d <=? n then str_len (fmt_dec (n / d)) - 1 else log10_small 400 n d.

Fixpoint strip_zeros_rev (s : string) : string :=
  match s with String "0" r => strip_zeros_rev r | _ => s end.
Definition strip_trailing_zeros (s : string) : string := rev_string (strip_zeros_rev (rev_string s)).

(** digits [ds] (no trailing zeros) with decimal exponent [x]: value 0.ds * 10^x; formatted as
    encode.go floatEncoder does: 'f' for 1e-6 <= v < 1e21, else 'e' with a short negative exponent *)
Definition f64_layout (ds : string) (x : Z) : string :=
  let n := str_len ds in
  if (-5 <=? x) && (x <=? 21) then
    if x <=? 0 then "0." +:+ zeros (Z.to_nat (- x)) +:+ ds
    else if n <=? x then ds +:+ zeros (Z.to_nat (x - n))
    else str_take (Z.to_nat x) ds +:+ "." +:+ str_drop (Z.to_nat x) ds
  else
    let e := x - 1 in
    let mant := str_take 1 ds +:+ (if n =? 1 then "" else "." +:+ str_drop 1 ds) in
    let a := fmt_dec (Z.abs e) in
    mant +:+ (if e <? 0 then "e-" +:+ a else "e+" +:+ (if str_len a =? 1 then "0" +:+ a else a)).

(** candidate: n significant digits of the value, rounded down (up = 0) or up (up = 1) *)
Definition f64_candidate (v : Z * Z) (p : Z) (n up : Z) : string :=
  let sc := p - n + 1 in  (* unit 10^sc *)
  let q := (f64_num v * 10 ^ (Z.max (- sc) 0)) / (f64_den v * 10 ^ (Z.max sc 0)) + up in
  let d := fmt_dec q in
  f64_layout (strip_trailing_zeros d) (str_len d + sc).
Definition f64_nearest_up (v : Z * Z) (p n : Z) : Z :=
  let sc := p - n + 1 in
  let num := f64_num v * 10 ^ (Z.max (- sc) 0) in
  let den := f64_den v * 10 ^ (Z.max sc 0) in
  if 2 * (num mod den) <=? den then 0 else 1.
Definition f64_same (s : string) (neg : bool) (v : Z * Z) : bool :=
  match f64_of s, parse_num s with
  | Some (ng, w), Some (s', EmptyString) => Bool.eqb ng neg && bool_decide (w = v) && String.eqb s' s
  | _, _ => false
  end.
Fixpoint f64_shortest (fuel : nat) (n : Z) (neg : bool) (v : Z * Z) (p : Z) : option string :=
  match fuel with
  | O => None
  | S f =>
      let sg s := if neg then "-" +:+ s else s in
      let u := f64_nearest_up v p n in
      let c1 := sg (f64_candidate v p n u) in
      let c2 := sg (f64_candidate v p n (1 - u)) in
      if f64_same c1 neg v then Some c1
      else if f64_same c2 neg v then Some c2
      else f64_shortest f (n + 1) neg v p
  end.
(** shortest decimal that reads back as the same double; [None] never happens for real doubles (17 digits
    always suffice), but the model does not rely on it *)
Definition f64_print (neg : bool) (v : Z * Z) : option string :=
  if v.1 =? 0 then Some (if neg then "-0" else "0")
  else f64_shortest 17 1 neg v (log10_floor (f64_num v) (f64_den v)).

Definition two53 : Z := 9007199254740992.
(** A number literal decoded into [any] (float64) and written back by [json.Marshal].  For integer literals up to
    2^53 in absolute value the text does not change (first branch, a shortcut). *)
Definition f64_text (lit : string) : option string :=
  match f64_of lit with Some (ng, v) => Some (default lit (f64_print ng v)) | None => None end.
Definition f64_norm (lit : string) : option string :=
  match parse_int 10 lit with
  | Some z => if Z.abs z <=? two53 then Some lit else f64_text lit
  | None => f64_text lit
  end.

(** ** Decoding into [any] (decode.go valueInterface/objectInterface/literalInterface): result is again a tree, with
    escapes gone, numbers as float64 and objects as maps (sorted, last duplicate wins). *)
Fixpoint seq_opt {A} (l : list (option A)) : option (list A) :=
  match l with
  | [] => Some []
  | Some x :: l => match seq_opt l with Some r => Some (x :: r) | None => None end
  | None :: _ => None
  end.
Definition seq_kv {A} (l : list (string * option A)) : option (list (string * A)) :=
  seq_opt (map (fun kv => match kv.2 with Some v => Some (kv.1, v) | None => None end) l).
Fixpoint norm (j : json) : option json :=
  match j with
  | JNull => Some JNull
  | JBool b => Some (JBool b)
  | JNum l => match f64_norm l with Some l => Some (JNum l) | None => None end
  | JStr s | JEsc s => Some (JStr s)
  | JArr l => match seq_opt (map norm l) with Some l => Some (JArr l) | None => None end
  | JObj l => match seq_kv (map (fun kv => (kv.1, norm kv.2)) l) with
              | Some l => Some (JObj (obj_norm l)) | None => None end
  end.

(** [json.Unmarshal(data, &m)] for [m map[string]any] (nil before): null leaves nil, objects give a map, anything
    else is a type error. *)
Definition decode_dict (j : json) : outcome (gomap json) :=
  match j with
  | JNull => Ok None
  | JObj l => match seq_kv (map (fun kv => (kv.1, norm kv.2)) l) with
              | Some l => Ok (Some (list_to_map (obj_norm l)))
              | None => Err (EOther "json: cannot unmarshal number into Go value of type float64")
              end
  | _ => Err (EOther "json: cannot unmarshal value into Go value of type map[string]interface {}")
  end.

(** a string literal whose value matters, escaped or not *)
Definition jstring (j : json) : option string :=
  match j with JStr s | JEsc s => Some s | _ => None end.
Fixpoint unesc (j : json) : json :=
  match j with
  | JEsc s => JStr s
  | JArr l => JArr (map unesc l)
  | JObj l => JObj (map (fun kv => (kv.1, unesc kv.2)) l)
  | j => j
  end.

(** ** Canonical JSON: go-securesystemslib v0.8.0 cjson/canonicaljson.go, EncodeCanonical.
    The argument is the tree that [json.Marshal] printed; it is decoded with [UseNumber] (so number literals keep
    their text) and written with sorted keys; only backslash and quote are escaped; numbers must be int64. *)
Fixpoint cj_esc (s : string) : string :=
  match s with
  | EmptyString => EmptyString
  | String c r => if (bz c =? 34) || (bz c =? 92) then String "\" (String c (cj_esc r)) else String c (cj_esc r)
  end.
Definition cj_str (s : string) : string := dquote +:+ cj_esc s +:+ dquote.
Fixpoint cjson (j : json) : option string :=
  match j with
  | JNull => Some "null"
  | JBool true => Some "true"
  | JBool false => Some "false"
  | JNum l => match parse_int 10 l with Some _ => Some l | None => None end
  | JStr s | JEsc s => Some (cj_str s)
  | JArr l => match seq_opt (map cjson l) with
              | Some l => Some ("[" +:+ join_str "," l +:+ "]") | None => None end
  | JObj l => (* a duplicate's canonical form is discarded with it *)
      match seq_kv (obj_norm (map (fun kv => (kv.1, cjson kv.2)) l)) with
      | Some l => Some ("{" +:+ join_str "," (map (fun kv => cj_str kv.1 +:+ ":" +:+ kv.2) l) +:+ "}")
      | None => None end
  end.

(** What a string becomes when it is written by [json.Marshal] and read back: bytes that are not valid UTF-8 are
    replaced by U+FFFD. *)
Fixpoint utf8_sanitize (s : string) : string :=
  match s with
  | EmptyString => EmptyString
  | String c r =>
      if bz c <? 128 then String c (utf8_sanitize r)
      else
        match utf8_len s with
        | Some 2%nat =>
            match r with String x1 r1 => String c (String x1 (utf8_sanitize r1)) | _ => EmptyString end
        | Some 3%nat =>
            match r with
            | String x1 (String x2 r2) => String c (String x1 (String x2 (utf8_sanitize r2)))
            | _ => EmptyString end
        | Some 4%nat =>
            match r with
            | String x1 (String x2 (String x3 r3)) =>
                String c (String x1 (String x2 (String x3 (utf8_sanitize r3))))
            | _ => EmptyString end
        | _ => utf8_fffd +:+ utf8_sanitize r
        end
  end.
Fixpoint json_sanitize (j : json) : json :=
  match j with
  | JStr s | JEsc s => JStr (utf8_sanitize s)
  | JArr l => JArr (map json_sanitize l)
  | JObj l => JObj (map (fun kv => (utf8_sanitize kv.1, json_sanitize kv.2)) l)
  | j => j
  end.
(** [cjson.EncodeCanonical(v)] where [json.Marshal(v)] writes the tree [j].  [JsonText.v] proves that parsing the
    printed text of [j] gives [json_sanitize j] up to the escape marks that [cjson] ignores. *)
Definition encode_canonical (j : json) : outcome string :=
  match cjson (json_sanitize j) with
  | Some s => Ok s
  | None => Err (EOther "panic inside canonical JSON encoder recovered as error")
  end.

Definition q (s : string) : string := dquote +:+ s +:+ dquote.
Example json_tests :
  (parse_json (" {" +:+ q "a" +:+ ": [1, -0, 2.50e3, null, true], " +:+ q "bé\n" +:+ ":" +:+ q "x" +:+ "} "),
   parse_json "01", parse_json "[1,]", parse_json "nul",
   map f64_norm ["9007199254740993"; "1152921504606846976"; "1e21"; "1e20"; "0.1"; "0.30000000000000004"; "1e-7"; "123456e-10"; "-0"; "-0.0"; "1e400"; "5e-324"; "1.0"; "4e-324"])
  = (Some (JObj [("a", JArr [JNum "1"; JNum "-0"; JNum "2.50e3"; JNull; JBool true]);
                 ("bé" +:+ s1 (zb 10), JStr "x")]), None, None, None,
     [Some "9007199254740992"; Some "1152921504606847000"; Some "1e+21"; Some "100000000000000000000"; Some "0.1";
      Some "0.30000000000000004"; Some "1e-7"; Some "0.0000123456"; Some "-0"; Some "-0"; None; Some "5e-324"; Some "1"; Some "5e-324"]).
Proof. vm_compute. reflexivity. Qed.
