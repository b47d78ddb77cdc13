(** * WebAssembly modules in the binary format

    After the WebAssembly core specification 1.0, chapter 5 (numbers below are its sections), as far as
    wasm_demo/demo.wasm uses it: anything else is not read.  Not read either: imports, start functions
    and elements of tables, which demo.wasm does not have. *)
From Coq Require Import ZArith.
From Verif Require Import Prim Webasm.

Declare Scope bin_scope.
Notation "'let!' p := x 'in' k" := (match x with Some p => k | None => None end) (at level 200, p pattern, k at level 200) : bin_scope.
Local Open Scope bin_scope.
Definition parser (A : Type) := list N -> option (A * list N).

(** 5.2.2: integers in LEB128, low seven bits first; [s] is the number of bits read before *)
Fixpoint leb_from (n : nat) (s : N) (signed : option N) (bs : list N) : option (N * list N) :=
  match n, bs with
  | S n', x :: r =>
      if x <? 128 then
        match signed with
        | Some bits => Some ((if x <? 64 then N.shiftl x s else N.shiftl x s + (2 ^ bits - 2 ^ (s + 7))) mod 2 ^ bits, r)
        | None => Some (N.shiftl x s, r)
        end
      else let! (v, r) := leb_from n' (s + 7) signed r in
           Some ((N.shiftl (x - 128) s + v) mod 2 ^ match signed with Some bits => bits | None => 32 end, r)
  | _, _ => None
  end.
Definition u32 : parser N := leb_from 5 0 None.
Definition s32 : parser N := leb_from 5 0 (Some 32).
Definition s64 : parser N := leb_from 10 0 (Some 64).
Definition idx (bs : list N) : option (nat * list N) := let! (v, r) := u32 bs in Some (N.to_nat v, r).

(** A byte that must be there *)
Definition byte (x : N) (bs : list N) : option (list N) :=
  match bs with y :: r => if x =? y then Some r else None | [] => None end.

(** 5.1.3: vectors *)
Fixpoint times {A} (n : nat) (p : parser A) (bs : list N) : option (list A * list N) :=
  match n with
  | O => Some ([], bs)
  | S n' => let! (x, r) := p bs in let! (xs, r) := times n' p r in Some (x :: xs, r)
  end.
Definition vec {A} (p : parser A) (bs : list N) : option (list A * list N) :=
  let! (n, r) := u32 bs in times (N.to_nat n) p r.

(** The first [n] of the bytes *)
Definition take (n : N) (bs : list N) : option (list N * list N) :=
  let h := firstn (N.to_nat n) bs in
  if N.of_nat (length h) =? n then Some (h, skipn (N.to_nat n) bs) else None.

(** 5.4: instructions up to the end of the block they are in *)
Definition numeric (x : N) : option binop :=
  match x with
  | 0x46 => Some Eq | 0x47 => Some Ne | 0x48 => Some LtS | 0x49 => Some LtU | 0x4A => Some GtS | 0x4B => Some GtU
  | 0x4C => Some LeS | 0x4D => Some LeU | 0x4F => Some GeU
  | 0x6A => Some Add | 0x6B => Some Sub | 0x6C => Some Mul | 0x71 => Some And | 0x72 => Some Or | 0x73 => Some Xor
  | 0x74 => Some Shl | 0x76 => Some ShrU | 0x77 => Some Rotl
  | _ => None
  end.
Definition indexed (x : N) : option (nat -> instr) :=
  match x with
  | 0x0C => Some IBr | 0x0D => Some IBrIf | 0x10 => Some ICall
  | 0x20 => Some ILGet | 0x21 => Some ILSet | 0x22 => Some ILTee | 0x23 => Some IGGet | 0x24 => Some IGSet
  | _ => None
  end.
Definition memarg (x : N) : option (N -> instr) :=
  match x with
  | 0x28 => Some ILoad | 0x29 => Some ILoad64 | 0x2C => Some ILoad8S | 0x2D => Some ILoad8U
  | 0x36 => Some IStore | 0x37 => Some IStore64
  | _ => None
  end.
Definition simple (x : N) : option instr :=
  match x with
  | 0x00 => Some IUnreachable | 0x0F => Some IReturn | 0x1B => Some ISelect | 0x45 => Some IEqz
  | _ => match numeric x with Some op => Some (IBin op) | None => None end
  end.
Definition leaf (x : N) (r : list N) : option (instr * list N) :=
  match simple x with
  | Some i => Some (i, r)
  | None =>
  match indexed x with
  | Some f => let! (n, r) := idx r in Some (f n, r)
  | None =>
  match memarg x with
  | Some f => let! (_, r) := u32 r in let! (o, r) := u32 r in Some (f o, r)
  | None =>
  match x with
  | 0x0E => let! (ls, r) := vec idx r in let! (d, r) := idx r in Some (IBrTable ls d, r)
  | 0x41 => let! (v, r) := s32 r in Some (IConst v, r)
  | 0x42 => let! (v, r) := s64 r in Some (IConst v, r)
  | _ => None
  end end end end.
Fixpoint instrs (fuel : nat) (bs : list N) : option (list instr * list N) :=
  match fuel, bs with
  | S n, x :: r =>
      if x =? 0x0B then Some ([], r)
      else if (x =? 0x02) || (x =? 0x03) then
        let! r := byte 0x40 r in
        let! (b, r) := instrs n r in
        let! (k, r) := instrs n r in Some ((if x =? 0x02 then IBlock b else ILoop b) :: k, r)
      else let! (i, r) := leaf x r in let! (k, r) := instrs n r in Some (i :: k, r)
  | _, _ => None
  end.
Definition expr (bs : list N) : option (list instr * list N) := instrs (length bs) bs.

(** 5.3.3: function types; all values are i32 *)
Definition i32_type (bs : list N) : option (unit * list N) := let! r := byte 0x7F bs in Some (tt, r).
Definition functype (bs : list N) : option (nat * nat * list N) :=
  let! r := byte 0x60 bs in
  let! (ps, r) := vec i32_type r in
  let! (rs, r) := vec i32_type r in Some (length ps, length rs, r).

(** 5.5.6, 5.5.8, 5.5.9: tables, memories, globals *)
Definition table (bs : list N) : option (N * N * list N) :=
  let! r := byte 0x70 bs in let! r := byte 0x01 r in let! (lo, r) := u32 r in let! (hi, r) := u32 r in Some (lo, hi, r).
Definition memtype (bs : list N) : option (N * list N) := let! r := byte 0x00 bs in u32 r.
Definition const_expr (bs : list N) : option (N * list N) :=
  let! r := byte 0x41 bs in let! (v, r) := s32 r in let! r := byte 0x0B r in Some (v, r).
Definition global (bs : list N) : option (bool * N * list N) :=
  let! r := byte 0x7F bs in
  match r with mut :: r => let! (v, r) := const_expr r in Some (mut =? 1, v, r) | [] => None end.

(** 5.5.10: exports: the name, the kind (0 a function, 2 a memory, 3 a global), the index *)
Definition any (bs : list N) : option (N * list N) := match bs with x :: r => Some (x, r) | [] => None end.
Definition export (bs : list N) : option (list N * N * nat * list N) :=
  let! (name, r) := vec any bs in let! (kind, r) := any r in let! (i, r) := idx r in Some (name, kind, i, r).

(** 5.5.13: code: the number of locals and the instructions *)
Definition locals_of (bs : list N) : option (nat * list N) :=
  let! (n, r) := idx bs in let! r := byte 0x7F r in Some (n, r).
Definition code (bs : list N) : option (nat * list instr * list N) :=
  let! (size, r) := u32 bs in
  let! (body, r) := take size r in
  let! (ls, body) := vec locals_of body in
  let! (is, rest) := expr body in
  match rest with [] => Some (fold_right Nat.add 0%nat ls, is, r) | _ => None end.

(** 5.5.14: data: where, and what *)
Definition data (bs : list N) : option (N * list N * list N) :=
  let! r := byte 0x00 bs in
  let! (a, r) := const_expr r in
  let! (n, r) := u32 r in
  let! (d, r) := take n r in Some (a, d, r).

(** 5.5.2: sections, one after another *)
Definition section (id : N) (bs : list N) : option (list N * list N) :=
  let! r := byte id bs in let! (n, r) := u32 r in take n r.
Definition whole {A} (p : parser A) (bs : list N) : option A :=
  let! (x, r) := p bs in match r with [] => Some x | _ => None end.

(** 5.5.15: modules *)
Record wmodule := WModule {
  w_types : list (nat * nat);
  w_funcs : list nat;
  w_memory : list N;
  w_globals : list (bool * N);
  w_exports : list (list N * N * nat);
  w_code : list (nat * list instr);
  w_data : list (N * list N)
}.
Fixpoint bytes_eqb (a b : list N) : bool :=
  match a, b with
  | [], [] => true
  | x :: a', y :: b' => (x =? y) && bytes_eqb a' b'
  | _, _ => false
  end.
Definition magic : list N := [0x00; 0x61; 0x73; 0x6D; 0x01; 0x00; 0x00; 0x00].
Definition header_and_code (bs : list N) : option ((list N -> option wmodule) * list N) :=
  let! (h, r) := take 8 bs in
  if negb (bytes_eqb h magic) then None else
  let! (types, r) := section 1 r in
  let! (funcs, r) := section 3 r in
  let! (tables, r) := section 4 r in
  let! (memories, r) := section 5 r in
  let! (globals, r) := section 6 r in
  let! (exports, r) := section 7 r in
  let! (codes, r) := section 10 r in
  let! types := whole (vec functype) types in
  let! funcs := whole (vec idx) funcs in
  let! _ := whole (vec table) tables in
  let! memories := whole (vec memtype) memories in
  let! globals := whole (vec global) globals in
  let! exports := whole (vec export) exports in
  let! codes := whole (vec code) codes in
  Some (fun datas => let! datas := whole (vec data) datas in Some (WModule types funcs memories globals exports codes datas), r).
Definition decode (bs : list N) : option wmodule :=
  let! (k, r) := header_and_code bs in
  let! (datas, r) := section 11 r in
  match r with [] => k datas | _ => None end.

(** ** What a module does (4.5.4) *)

(** Its functions, with the numbers of parameters and results that their types give them *)
Definition functions (w : wmodule) : list func :=
  map (fun p => let '(t, (ls, is)) := p in
                let '(ps, rs) := nth t (w_types w) (0%nat, 0%nat) in Func ps rs ls is)
      (combine (w_funcs w) (w_code w)).
(** Its memory at the start: pages of 64 KiB, zero where no segment is; later segments over earlier ones *)
Definition memory_size (w : wmodule) : N := 65536 * hd 0 (w_memory w).
Definition memory_at_start (w : wmodule) : memory :=
  fold_left (fun m d => let '(a, bs) := d in
               fun x => if (a <=? x) && (x <? a + N.of_nat (length bs)) then nth (N.to_nat (x - a)) bs 0 else m x)
            (w_data w) (fun _ => 0).
Definition globals_at_start (w : wmodule) : list N := map snd (w_globals w).
Definition exported (w : wmodule) (name : list N) : option (N * nat) :=
  match find (fun e => let '(n, _, _) := e in bytes_eqb n name) (w_exports w) with
  | Some (_, k, i) => Some (k, i)
  | None => None
  end.
