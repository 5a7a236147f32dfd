(** * UTF-8: the bytes of a character (RFC 3629) *)
From stdpp Require Import base strings list.
From Coq Require Import ZArith Lia Ascii String.
From Verif Require Import GoBase GoStr.
Open Scope Z_scope.

Definition str_of (l : list Z) : string := string_of_list_ascii (map zb l).
(** [is_char r u]: [u] is the encoding of the code point [r] *)
Inductive is_char : Z -> string -> Prop :=
  | char1 r : 0 <= r < 128 -> is_char r (str_of [r])
  | char2 a b : 2 <= a < 32 -> 0 <= b < 64 -> is_char (a * 64 + b) (str_of [192 + a; 128 + b])
  | char3 a b c : 0 <= a < 16 -> 0 <= b < 64 -> 0 <= c < 64 ->
      2048 <= a * 4096 + b * 64 + c -> ~ 55296 <= a * 4096 + b * 64 + c <= 57343 ->
      is_char (a * 4096 + b * 64 + c) (str_of [224 + a; 128 + b; 128 + c])
  | char4 a b c d : 0 <= a < 5 -> 0 <= b < 64 -> 0 <= c < 64 -> 0 <= d < 64 ->
      65536 <= a * 262144 + b * 4096 + c * 64 + d <= 1114111 ->
      is_char (a * 262144 + b * 4096 + c * 64 + d) (str_of [240 + a; 128 + b; 128 + c; 128 + d]).
(** the first character of a byte string and what follows it; a byte that begins no character counts as U+FFFD *)
Definition first_char (s : string) (r : Z) (s' : string) : Prop :=
  (exists u, is_char r u /\ s = u +:+ s') \/
  ((~ exists r' u s'', is_char r' u /\ s = u +:+ s'') /\ r = 65533 /\ exists c, s = String c s').
(** valid UTF-8: a sequence of characters *)
Inductive utf8_text : string -> Prop :=
  | utf8_nil : utf8_text ""
  | utf8_cons r u s : is_char r u -> utf8_text s -> utf8_text (u +:+ s).
