(** * The deflate format (RFC 1951), as a relation between bits and data *)
From Verif Require Import Prim.

(** ** Numbers in bits *)
Fixpoint lsb_bits (n : nat) (v : N) : list bool :=
  match n with O => [] | S n' => N.odd v :: lsb_bits n' (N.div2 v) end.
Fixpoint msb_bits (n : nat) (v : N) : list bool :=
  match n with O => [] | S n' => N.testbit v (N.of_nat n') :: msb_bits n' v end.
Definition bytes_bits (data : list N) : list bool := flat_map (lsb_bits 8) data.

(** ** Huffman codes, 3.2.2

    [lens] has the length of each symbol's code, 0 for symbols without one.  All shorter
    codes come first, and of one length those of smaller symbols. *)
Definition len_of (lens : list N) (s : N) : N := nth (N.to_nat s) lens 0.
Fixpoint shorter (l : N) (lens : list N) : N :=
  match lens with
  | [] => 0
  | k :: t => (if (0 <? k) && (k <? l) then 2 ^ (l - k) else 0) + shorter l t
  end.
Definition code_value (lens : list N) (s : N) : N :=
  let l := len_of lens s in
  shorter l lens + N.of_nat (count_occ N.eq_dec (firstn (N.to_nat s) lens) l).
Definition code_bits (lens : list N) (s : N) : list bool :=
  msb_bits (N.to_nat (len_of lens s)) (code_value lens s).
Definition has_code (lens : list N) (s : N) : Prop := len_of lens s <> 0.

(** Codes that decoders accept: every sequence of bits starts with one; or there is one
    symbol, of one bit; or none *)
Fixpoint weight (lens : list N) : N :=
  match lens with
  | [] => 0
  | l :: t => (if l =? 0 then 0 else 2 ^ (15 - l)) + weight t
  end.
Definition good_code (lens : list N) : Prop :=
  (forall s, len_of lens s <= 15) /\
  (weight lens = 2 ^ 15
   \/ (exists s, len_of lens s = 1 /\ forall s', s' <> s -> len_of lens s' = 0)
   \/ (forall s, len_of lens s = 0)).

(** ** Literals and copies, 3.2.5 *)
Inductive token := Lit (b : N) | Copy (len dist : N).

(** A copy goes byte by byte, so that it can copy what it has written *)
Fixpoint copied (n dist : nat) (out : list N) : list N :=
  match n with
  | O => out
  | S n' => copied n' dist (out ++ [nth (length out - dist) out 0])
  end.
Definition after_token (out : list N) (t : token) : list N :=
  match t with
  | Lit b => out ++ [b]
  | Copy len dist => copied (N.to_nat len) (N.to_nat dist) out
  end.
Definition token_fits (out : list N) (t : token) : Prop :=
  match t with Lit _ => True | Copy _ dist => dist <= N.of_nat (length out) end.

Definition length_extra (i : N) : N := if (i <? 8) || (i =? 28) then 0 else i / 4 - 1.
Definition length_base (i : N) : N :=
  if i <? 8 then 3 + i else if i =? 28 then 258 else 3 + (4 + i mod 4) * 2 ^ (i / 4 - 1).
Definition distance_extra (i : N) : N := if i <? 4 then 0 else i / 2 - 1.
Definition distance_base (i : N) : N := if i <? 4 then 1 + i else 1 + (2 + i mod 2) * 2 ^ (i / 2 - 1).

Inductive token_bits (lit dist : list N) : token -> list bool -> Prop :=
| literal_bits b : b < 256 -> has_code lit b -> token_bits lit dist (Lit b) (code_bits lit b)
| copy_bits i v j w :
    i < 29 -> v < 2 ^ length_extra i -> has_code lit (257 + i) ->
    j < 30 -> w < 2 ^ distance_extra j -> has_code dist j ->
    token_bits lit dist (Copy (length_base i + v) (distance_base j + w))
      (code_bits lit (257 + i) ++ lsb_bits (N.to_nat (length_extra i)) v
       ++ code_bits dist j ++ lsb_bits (N.to_nat (distance_extra j)) w).

(** The tokens of a block: after the output [out], the bits make it [out'], and [rest]
    is left of them *)
Inductive tokens_bits (lit dist : list N) : list N -> list bool -> list N -> list bool -> Prop :=
| end_of_block out rest : has_code lit 256 -> tokens_bits lit dist out (code_bits lit 256 ++ rest) out rest
| one_token out t b bits out' rest :
    token_bits lit dist t b -> token_fits out t ->
    tokens_bits lit dist (after_token out t) bits out' rest ->
    tokens_bits lit dist out (b ++ bits) out' rest.

(** ** The codes of a block, 3.2.6 and 3.2.7 *)
Definition fixed_literals : list N :=
  map (fun s => if s <? 144 then 8 else if s <? 256 then 9 else if s <? 280 then 7 else 8) (map N.of_nat (seq 0 288)).
Definition fixed_distances : list N := map (fun _ => 5) (seq 0 32).

Inductive lengths_bits (code : list N) : list N -> list bool -> list N -> list bool -> Prop :=
| no_more lens rest : lengths_bits code lens rest lens rest
| one_length lens l bits lens' rest : l < 16 -> has_code code l ->
    lengths_bits code (lens ++ [l]) bits lens' rest ->
    lengths_bits code lens (code_bits code l ++ bits) lens' rest
| repeat_last lens l k bits lens' rest : k < 4 -> has_code code 16 ->
    lengths_bits code ((lens ++ [l]) ++ repeat l (3 + N.to_nat k)) bits lens' rest ->
    lengths_bits code (lens ++ [l]) (code_bits code 16 ++ lsb_bits 2 k ++ bits) lens' rest
| some_zeros lens k bits lens' rest : k < 8 -> has_code code 17 ->
    lengths_bits code (lens ++ repeat 0 (3 + N.to_nat k)) bits lens' rest ->
    lengths_bits code lens (code_bits code 17 ++ lsb_bits 3 k ++ bits) lens' rest
| many_zeros lens k bits lens' rest : k < 128 -> has_code code 18 ->
    lengths_bits code (lens ++ repeat 0 (11 + N.to_nat k)) bits lens' rest ->
    lengths_bits code lens (code_bits code 18 ++ lsb_bits 7 k ++ bits) lens' rest.

(** The lengths of the code for lengths are in an order of their own; those left out are 0 *)
Definition order : list N := [16; 17; 18; 0; 8; 7; 9; 6; 10; 5; 11; 4; 12; 3; 13; 2; 14; 1; 15].
Definition in_order (values lens : list N) : Prop :=
  length lens = 19%nat /\ (length values <= 19)%nat /\
  forall k, (k < 19)%nat -> len_of lens (nth k order 0) = nth k values 0.

Inductive codes_bits : list N -> list N -> list bool -> list bool -> Prop :=
| some_codes hlit hdist hclen values code lens bits rest :
    hlit < 30 -> hdist < 30 -> hclen < 16 ->
    length values = N.to_nat (4 + hclen) -> Forall (fun v => v < 8) values -> in_order values code ->
    lengths_bits code [] bits lens rest ->
    length lens = N.to_nat (257 + hlit + 1 + hdist) ->
    good_code code ->
    codes_bits (firstn (N.to_nat (257 + hlit)) lens) (skipn (N.to_nat (257 + hlit)) lens)
      (lsb_bits 5 hlit ++ lsb_bits 5 hdist ++ lsb_bits 4 hclen ++ flat_map (lsb_bits 3) values ++ bits) rest.

(** ** Blocks, 3.2.3 and 3.2.4

    A stored block starts at the next byte; the bits in between mean nothing.  The end of
    all bits is the end of a byte. *)
Inductive block_bits : list N -> list bool -> list N -> list bool -> Prop :=
| stored_block out pad data rest :
    (length pad < 8)%nat -> Nat.modulo (length rest) 8 = 0%nat ->
    N.of_nat (length data) <= 0xFFFF -> Forall (fun b => b < 256) data ->
    let len := N.of_nat (length data) in
    block_bits out (false :: false :: pad ++ lsb_bits 16 len ++ lsb_bits 16 (0xFFFF - len) ++ bytes_bits data ++ rest)
      (out ++ data) rest
| fixed_block out bits out' rest :
    tokens_bits fixed_literals fixed_distances out bits out' rest ->
    block_bits out (true :: false :: bits) out' rest
| dynamic_block out lit dist bits mid out' rest :
    codes_bits lit dist bits mid -> good_code lit -> good_code dist ->
    tokens_bits lit dist out mid out' rest ->
    block_bits out (false :: true :: bits) out' rest.

Inductive deflated : list N -> list bool -> list N -> list bool -> Prop :=
| last_block out bits out' rest : block_bits out bits out' rest -> deflated out (true :: bits) out' rest
| next_block out bits out' mid out'' rest :
    block_bits out bits out' mid -> deflated out' mid out'' rest -> deflated out (false :: bits) out'' rest.
