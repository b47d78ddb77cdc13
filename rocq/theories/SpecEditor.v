(** * Specification for the script that writes the generator's files

    A text file is a list of bytes, the string of a table a list of characters. None
    of the functions of the script or of the generator is used here. *)
From Coq Require Import ZArith.
From Verif Require Import Prim.
Local Open Scope N_scope.

(** UTF-8 *)
Definition utf8_char (c : N) : list N :=
  if c <? 0x80 then [c]
  else if c <? 0x800 then [0xC0 + c / 64; 0x80 + c mod 64]
  else if c <? 0x10000 then [0xE0 + c / 4096; 0x80 + c / 64 mod 64; 0x80 + c mod 64]
  else [0xF0 + c / 262144; 0x80 + c / 4096 mod 64; 0x80 + c / 64 mod 64; 0x80 + c mod 64].
Definition utf8_bytes (s : list N) : list N := concat (map utf8_char s).

(** Characters: the Unicode scalars *)
Definition scalars (s : list N) : Prop := Forall (fun c => c < 0xD800 \/ 0xE000 <= c < 0x110000) s.

(** The input says yes: the first line is y or Y, with any line end *)
Definition says_yes (input : list N) : Prop :=
  exists c, (c = 121 \/ c = 89) /\
    (input = [c] \/ input = [c; 13] \/ (exists t, input = c :: 10 :: t) \/ (exists t, input = c :: 13 :: 10 :: t)).

(** d is the value of the hexadecimal digit with byte b *)
Definition hex_char (b d : N) : Prop :=
  (48 <= b <= 57 /\ d = b - 48) \/ (65 <= b <= 70 /\ d = b - 55) \/ (97 <= b <= 102 /\ d = b - 87).

(** n is the number with the hexadecimal digits s *)
Inductive hex_number : list N -> N -> Prop :=
| hn_digit b d : hex_char b d -> hex_number [b] d
| hn_more s n b d : hex_number s n -> hex_char b d -> hex_number (s ++ [b]) (n * 16 + d).

(** The name of a cluster: its characters in hexadecimal, '-' between any two *)
Inductive cluster_name : list N -> list N -> Prop :=
| cn_one s c : hex_number s c -> cluster_name s [c]
| cn_more s c rest cs : hex_number s c -> cluster_name rest cs -> cluster_name (s ++ 45 :: rest) (c :: cs).

(** What JSON writes for white space *)
Definition json_blank (s : list N) : Prop := Forall (fun c => In c [32; 9; 10; 13]) s.
