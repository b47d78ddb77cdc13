(** * Rust string slices.

    A [&str] is modelled as the list of its Unicode scalar values; byte
    positions are recovered from the UTF-8 length of each character.  That a
    &str is valid UTF-8 is guaranteed by Rust's type system. *)
From Verif Require Import Prim.

Definition str := list N.

(** Unicode scalar values: what a Rust [char] can hold. *)
Definition is_char (c : N) : bool :=
  (c <? 0xD800) || ((0xE000 <=? c) && (c <? 0x110000)).

Definition is_str (s : str) : bool := forallb is_char s.

(** char::len_utf8 *)
Definition len_utf8 (c : N) : N :=
  if c <? 0x80 then 1 else if c <? 0x800 then 2 else if c <? 0x10000 then 3 else 4.

(** str::len: number of bytes *)
Fixpoint str_len (s : str) : N :=
  match s with
  | [] => 0
  | c :: t => len_utf8 c + str_len t
  end.

(** str::char_indices, starting at byte position [i] *)
Fixpoint char_indices_from (i : N) (s : str) : list (N * N) :=
  match s with
  | [] => []
  | c :: t => (i, c) :: char_indices_from (i + len_utf8 c) t
  end.
Definition char_indices (s : str) : list (N * N) := char_indices_from 0 s.

(** [&s[k..]]: panics unless byte position k is a character boundary of s *)
Fixpoint slice_from (s : str) (k : N) : res str :=
  if k =? 0 then Ret s
  else match s with
       | [] => Panic
       | c :: t => if len_utf8 c <=? k then slice_from t (k - len_utf8 c) else Panic
       end.
