(** * The check value of chunks as a remainder (PNG, annex D; ISO 3309, ITU-T V.42) *)
From Coq Require Import ZArith.
From Verif Require Import Prim SpecDeflate.

(** x^32 + x^26 + x^23 + x^22 + x^16 + x^12 + x^11 + x^10 + x^8 + x^7 + x^5 + x^4 + x^2 + x + 1
    without its first term: the coefficients of x^31 to x^0 *)
Definition generator : list bool :=
  map (fun e => existsb (Nat.eqb e) [26; 23; 22; 16; 12; 11; 10; 8; 7; 5; 4; 2; 1; 0]%nat) (rev (seq 0 32)).

Fixpoint xor_front (a bits : list bool) : list bool :=
  match a, bits with x :: a', b :: t => xorb x b :: xor_front a' t | _, _ => bits end.

(** Long division over the field of two elements, coefficients of the highest power first:
    for each leading coefficient that is 1, the divisor is subtracted *)
Fixpoint remainder (steps : nat) (dividend : list bool) : list bool :=
  match steps, dividend with
  | S n, b :: t => remainder n (if b then xor_front generator t else t)
  | _, _ => dividend
  end.

(** The bits of the data, the first 32 of them inverted, and 32 zeros, divided; the
    remainder inverted *)
Definition check_bits (data : list N) : list bool :=
  map negb (remainder (8 * length data) (xor_front (repeat true 32) (bytes_bits data ++ repeat false 32))).
