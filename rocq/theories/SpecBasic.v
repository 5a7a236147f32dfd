(** * Specifications for expiry, hashes, target descriptions, errors and downloads *)
From stdpp Require Import base gmap strings list.
From Coq Require Import ZArith Lia Ascii String.
From Verif Require Import GoBase GoStr GoTime Types Keys.
Open Scope Z_scope.

(** ** Calendar (Gregorian): valid dates and the following day *)
Definition leap_year (y : Z) : Prop := (y mod 4 = 0 /\ y mod 100 <> 0) \/ y mod 400 = 0.
Definition month_days (y m days : Z) : Prop :=
  (In m [1; 3; 5; 7; 8; 10; 12] /\ days = 31) \/ (In m [4; 6; 9; 11] /\ days = 30) \/
  (m = 2 /\ leap_year y /\ days = 29) \/ (m = 2 /\ ~ leap_year y /\ days = 28).
Definition valid_date (y m d : Z) : Prop := exists days, month_days y m days /\ 1 <= d <= days.
Inductive next_day : Z * Z * Z -> Z * Z * Z -> Prop :=
  | next_same y m d days : month_days y m days -> 1 <= d < days -> next_day (y, m, d) (y, m, d + 1)
  | next_month y m days : month_days y m days -> m < 12 -> next_day (y, m, days) (y, m + 1, 1)
  | next_year y : next_day (y, 12, 31) (y + 1, 1, 1).
Definition valid_time (t : gotime) : Prop :=
  valid_date (t_year t) (t_mon t) (t_day t) /\ 0 <= t_hour t < 24 /\ 0 <= t_min t < 60 /\ 0 <= t_sec t < 60 /\
  0 <= t_ns t < 1000000000.
(** earlier on the same wall clock *)
Definition lex_lt (a b : list Z) : Prop :=
  exists p x y a' b', a = p ++ x :: a' /\ b = p ++ y :: b' /\ x < y.
Definition clock (t : gotime) : list Z := [t_year t; t_mon t; t_day t; t_hour t; t_min t; t_sec t; t_ns t].

(** ** Digests *)
Section Digest.
Context {CR : Crypto}.
(** [dig] is the digest of [data] for the algorithm called [alg]; exactly two algorithms are supported *)
Definition is_digest (data alg dig : string) : Prop :=
  (alg = "sha256" /\ dig = sha256 data) \/ (alg = "sha512" /\ dig = sha512 data).
(** every listed hash is a digest of the data *)
Definition hashes_ok (h : hashes) (data : string) : Prop :=
  forall m alg dig, h = Some m -> m !! alg = Some dig -> is_digest data alg dig.
End Digest.
Definition lists (h : hashes) (alg dig : string) : Prop := exists m, h = Some m /\ m !! alg = Some dig.

(** ** Errors: the error below all wrappers *)
Fixpoint innermost (e : gerr) : gerr := match e with EWrap _ i => innermost i | _ => e end.
Definition is_wrap (e : gerr) : Prop := exists m i, e = EWrap m i.

(** ** Decimal numbers as accepted by strconv.ParseInt(s, 10, 64) *)
Definition dec_digit (c : ascii) : Prop := (48 <= N_of_ascii c <= 57)%N.
Fixpoint dec_digits (s : string) : Prop := match s with "" => True | String c s => dec_digit c /\ dec_digits s end.
Fixpoint dec_value (acc : Z) (s : string) : Z :=
  match s with "" => acc | String c s => dec_value (10 * acc + (Z.of_N (N_of_ascii c) - 48)) s end.
Definition dec_number (s : string) (n : Z) : Prop :=
  exists sign digits, s = String.append sign digits /\ digits <> "" /\ dec_digits digits /\
    ((sign = "" /\ n = dec_value 0 digits) \/ (sign = "+" /\ n = dec_value 0 digits) \/ (sign = "-" /\ n = - dec_value 0 digits)) /\
    - 2 ^ 63 <= n < 2 ^ 63.

(** ** ASCII letters in lower case *)
Definition lower_ascii (c : ascii) : ascii :=
  let n := N_of_ascii c in if (65 <=? n)%N && (n <=? 90)%N then ascii_of_N (n + 32) else c.
