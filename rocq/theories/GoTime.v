(** * [time.Time] as used by the code: RFC 3339 text, comparison of instants *)
From stdpp Require Import base strings list.
From Coq Require Import ZArith Lia Ascii String.
From Verif Require Import GoBase GoStr.
Open Scope Z_scope.

(** A [time.Time] is represented by its civil date, time of day and zone offset (in seconds); Go stores the instant
    and the zone, which carry the same information. *)
Record gotime := mkTime {
  t_year : Z; t_mon : Z; t_day : Z; t_hour : Z; t_min : Z; t_sec : Z; t_ns : Z; t_off : Z }.
Global Instance gotime_eq_dec : EqDecision gotime.
Proof. solve_decision. Defined.

(** the zero [time.Time] *)
Definition time_zero : gotime := mkTime 1 1 1 0 0 0 0 0.

(** days since 1970-01-01 in the proleptic Gregorian calendar *)
Definition days_from_civil (y m d : Z) : Z :=
  let y' := if m <=? 2 then y - 1 else y in
  let era := y' / 400 in
  let yoe := y' - era * 400 in
  let mp := (m + 9) mod 12 in
  let doy := (153 * mp + 2) / 5 + d - 1 in
  let doe := yoe * 365 + yoe / 4 - yoe / 100 + doy in
  era * 146097 + doe - 719468.

(** nanoseconds since the Unix epoch *)
Definition instant (t : gotime) : Z :=
  (((days_from_civil (t_year t) (t_mon t) (t_day t) * 24 + t_hour t) * 60 + t_min t) * 60 + t_sec t - t_off t)
  * 1000000000 + t_ns t.

(** [u.After(t)] where [u] is given as an instant *)
Definition after (u : Z) (t : gotime) : bool := instant t <? u.

Definition is_leap (y : Z) : bool := (y mod 4 =? 0) && (negb (y mod 100 =? 0) || (y mod 400 =? 0)).
Definition days_in (m y : Z) : Z :=
  if m =? 2 then (if is_leap y then 29 else 28)
  else if (m =? 4) || (m =? 6) || (m =? 9) || (m =? 11) then 30 else 31.

(** fixed-width decimal *)
Fixpoint pad_dec (w : nat) (n : Z) : string :=
  match w with
  | O => ""
  | S w' => pad_dec w' (n / 10) +:+ s1 (hexdig (n mod 10))
  end.

(** exactly [w] digits *)
Fixpoint scan_dec (w : nat) (acc : Z) (s : string) : option (Z * string) :=
  match w with
  | O => Some (acc, s)
  | S w' => match s with
            | String c r => if is_digit c then scan_dec w' (acc * 10 + (bz c - 48)) r else None
            | EmptyString => None
            end
  end.
Definition expect (c : ascii) (s : string) : option string :=
  match s with String d r => if Ascii.eqb c d then Some r else None | EmptyString => None end.
(** one or two digits (the layout element 15) *)
Definition scan_hour (s : string) : option (Z * string) :=
  match s with
  | String a (String b r) =>
      if is_digit a then
        if is_digit b then Some ((bz a - 48) * 10 + (bz b - 48), r) else Some (bz a - 48, String b r)
      else None
  | String a EmptyString => if is_digit a then Some (bz a - 48, EmptyString) else None
  | EmptyString => None
  end.
(** fraction digits after the separator: nanoseconds (first nine digits), rest; digits beyond nine are dropped *)
Fixpoint scan_frac (w : nat) (acc : Z) (s : string) : Z * string :=
  match s with
  | String c r =>
      if is_digit c then
        match w with
        | O => scan_frac O acc r
        | S w' => scan_frac w' (acc * 10 + (bz c - 48)) r
        end
      else (acc * 10 ^ Z.of_nat w, s)
  | EmptyString => (acc * 10 ^ Z.of_nat w, s)
  end.

(** [time.Time.UnmarshalJSON] on the text between the quotes: time.Parse(RFC3339, s) of Go 1.21 (strict parsing is
    disabled there: one-digit hours and a comma before the fraction are accepted, offsets up to 24:60). *)
Definition parse_time (s : string) : option gotime :=
  match scan_dec 4 0 s with
  | None => None
  | Some (y, s) => match expect "-" s with None => None | Some s =>
  match scan_dec 2 0 s with None => None | Some (mo, s) => match expect "-" s with None => None | Some s =>
  match scan_dec 2 0 s with None => None | Some (d, s) => match expect "T" s with None => None | Some s =>
  match scan_hour s with None => None | Some (h, s) => match expect ":" s with None => None | Some s =>
  match scan_dec 2 0 s with None => None | Some (mi, s) => match expect ":" s with None => None | Some s =>
  match scan_dec 2 0 s with None => None | Some (se, s) =>
    let '(ns, s) := match s with
                    | String c (String d _ as r) =>
                        if ((bz c =? 46) || (bz c =? 44)) && is_digit d then scan_frac 9 0 r else (0, s)
                    | _ => (0, s)
                    end in
    let off := match s with
               | String c r =>
                   if bz c =? 90 then match r with EmptyString => Some 0 | _ => None end
                   else if (bz c =? 43) || (bz c =? 45) then
                     match scan_dec 2 0 r with None => None | Some (oh, r) =>
                     match expect ":" r with None => None | Some r =>
                     match scan_dec 2 0 r with None => None | Some (om, r) =>
                       match r with
                       | EmptyString =>
                           if (oh <=? 24) && (om <=? 60) then
                             let o := (oh * 60 + om) * 60 in Some (if bz c =? 45 then - o else o)
                           else None
                       | _ => None
                       end end end end
                   else None
               | EmptyString => None
               end in
    match off with
    | None => None
    | Some off =>
        if (1 <=? mo) && (mo <=? 12) && (1 <=? d) && (d <=? days_in mo y) && (h <? 24) && (mi <? 60) && (se <? 60)
        then Some (mkTime y mo d h mi se ns off) else None
    end
  end end end end end end end end end end end.

Fixpoint strip_zeros (s : string) : string :=
  match s with
  | EmptyString => EmptyString
  | String c r => match strip_zeros r with
                  | EmptyString => if Ascii.eqb c "0" then EmptyString else s1 c
                  | t => String c t
                  end
  end.
(** [time.Time.MarshalJSON]: RFC3339Nano between quotes; years outside 0..9999 and zone offsets of 24 hours or more
    are errors.  Offsets with seconds cannot come from parsed metadata; Go drops the seconds in the text. *)
Definition print_time (t : gotime) : option string :=
  let zone := Z.quot (t_off t) 60 in
  if (t_year t <? 0) || (9999 <? t_year t) || (24 <=? Z.abs zone / 60) then None
  else Some (
    pad_dec 4 (t_year t) +:+ "-" +:+ pad_dec 2 (t_mon t) +:+ "-" +:+ pad_dec 2 (t_day t) +:+ "T" +:+
    pad_dec 2 (t_hour t) +:+ ":" +:+ pad_dec 2 (t_min t) +:+ ":" +:+ pad_dec 2 (t_sec t) +:+
    (if t_ns t =? 0 then "" else "." +:+ strip_zeros (pad_dec 9 (t_ns t))) +:+
    (if t_off t =? 0 then "Z"
     else (if zone <? 0 then "-" else "+") +:+ pad_dec 2 (Z.abs zone / 60) +:+ ":" +:+ pad_dec 2 (Z.abs zone mod 60))).

Example gotime_tests :
  (parse_time "2030-08-15T14:30:45Z", parse_time "2030-08-15T4:30:45,1234567891+01:60", parse_time "2030-02-29T00:00:00Z",
   match parse_time "2030-08-15T14:30:45.1050-03:30" with Some t => print_time t | None => None end,
   instant (mkTime 1970 1 1 0 0 0 0 0), instant (mkTime 2000 3 1 0 0 0 0 0) / 1000000000,
   instant (mkTime 2024 2 29 12 0 0 5 3600))
  = (Some (mkTime 2030 8 15 14 30 45 0 0), Some (mkTime 2030 8 15 4 30 45 123456789 7200), None,
     Some "2030-08-15T14:30:45.105-03:30", 0, 951868800, 1709204400000000005).
Proof. vm_compute. reflexivity. Qed.
