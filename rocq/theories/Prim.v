(** * Machine-level primitives the Rust code rests on.

    Everything here models the Rust language itself (core arithmetic, arrays,
    ranges), not a file of the repository. *)
From Coq Require Export NArith List Bool Lia.
Export ListNotations.
Global Open Scope N_scope.

(** A Rust computation either returns or panics.  The frame buffer of a call
    that panics is not observed (the panic unwinds or aborts). *)
Inductive res (A : Type) : Type :=
| Ret (a : A)
| Panic.
Arguments Ret {A} a.
Arguments Panic {A}.

Definition bind {A B} (x : res A) (f : A -> res B) : res B :=
  match x with Ret a => f a | Panic => Panic end.

Notation "x <- e ;; k" := (bind e (fun x => k))
  (at level 61, e at next level, right associativity).
Notation "' p <- e ;; k" := (bind e (fun x => match x with p => k end))
  (at level 61, p pattern, e at next level, right associativity).

(** Build configuration: [ovf] is true when overflow checks are on (debug
    builds: arithmetic overflow and over-long shifts panic) and false when they
    are off (release builds: results wrap, shift amounts are masked);
    [ubits] is the width of usize. *)
Record cfg := Cfg { ovf : bool; ubits : N }.

(** The targets considered: 32-bit (wasm32, Xous) and 64-bit usize. *)
Definition cfg_ok (m : cfg) : Prop := ubits m = 32 \/ ubits m = 64.

Definition usize_limit (m : cfg) : N := 2 ^ ubits m.

(** usize [a + b] *)
Definition uadd (m : cfg) (a b : N) : res N :=
  if a + b <? usize_limit m then Ret (a + b)
  else if ovf m then Panic else Ret ((a + b) mod usize_limit m).

(** usize [a - b] *)
Definition usub (m : cfg) (a b : N) : res N :=
  if b <=? a then Ret (a - b)
  else if ovf m then Panic else Ret ((usize_limit m + a - b) mod usize_limit m).

(** usize [a * b] *)
Definition umul (m : cfg) (a b : N) : res N :=
  if a * b <? usize_limit m then Ret (a * b)
  else if ovf m then Panic else Ret ((a * b) mod usize_limit m).

(** usize [a >> 5] and [a & 0x1f] with constant arguments cannot overflow. *)
Definition ushr5 (a : N) : N := N.shiftr a 5.
Definition uand1f (a : N) : N := N.land a 0x1f.

(** Truncation to u32: keep the low 32 bits. *)
Definition u32max : N := 0xFFFFFFFF.
Definition w32 (x : N) : N := N.land x u32max.

(** u32 [a << k] and [a >> k], shift amount of type usize.  A shift amount of 32
    or more panics with overflow checks on; otherwise it is masked to 5 bits. *)
Definition shl32 (m : cfg) (a k : N) : res N :=
  if k <? 32 then Ret (w32 (N.shiftl a k))
  else if ovf m then Panic else Ret (w32 (N.shiftl a (uand1f k))).

Definition shr32 (m : cfg) (a k : N) : res N :=
  if k <? 32 then Ret (N.shiftr a k)
  else if ovf m then Panic else Ret (N.shiftr a (uand1f k)).

(** u32::wrapping_mul, wrapping_add, rotate_left (0 < r < 32). *)
Definition wmul32 (a b : N) : N := w32 (a * b).
Definition wadd32 (a b : N) : N := w32 (a + b).
Definition rotl32 (a r : N) : N := N.lor (w32 (N.shiftl a r)) (N.shiftr a (32 - r)).

(** Array read [a[i]]: panics when out of bounds, in every build. *)
Definition aget {A} (l : list A) (i : N) : res A :=
  match nth_error l (N.to_nat i) with Some v => Ret v | None => Panic end.

(** Array write [a[i] = v]: panics when out of bounds. *)
Fixpoint upd {A} (l : list A) (i : nat) (v : A) : list A :=
  match l, i with
  | [], _ => []
  | _ :: t, O => v :: t
  | h :: t, S j => h :: upd t j v
  end.

Definition aset {A} (l : list A) (i : N) (v : A) : res (list A) :=
  match nth_error l (N.to_nat i) with
  | Some _ => Ret (upd l (N.to_nat i) v)
  | None => Panic
  end.

(** [for i in lo..hi { st = body(i, st) }] *)
Fixpoint for_n {S} (n : nat) (i : N) (body : N -> S -> res S) (st : S) : res S :=
  match n with
  | O => Ret st
  | Datatypes.S n' => st' <- body i st ;; for_n n' (i + 1) body st'
  end.

Definition for_range {S} (lo hi : N) (body : N -> S -> res S) (st : S) : res S :=
  for_n (N.to_nat (hi - lo)) lo body st.
