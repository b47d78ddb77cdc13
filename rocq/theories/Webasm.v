(** * WebAssembly, as far as wasm_demo/demo.wasm uses it: instructions and their meaning

    After the WebAssembly core specification 1.0 (section numbers below are its), not after a file of
    the repository.  Values are numbers; the types that validation checks are not represented, i64
    occurs in loads, stores and constants only.  All blocks of the module have the empty type.  A run
    that the specification does not define (an ill-typed one) has no outcome here. *)
From Coq Require Import ZArith.
From Verif Require Import Prim.

(** 2.4: i32 operators of two operands *)
Inductive binop :=
| Add | Sub | Mul | And | Or | Xor | Shl | ShrU | Rotl
| Eq | Ne | LtS | LtU | GtS | GtU | LeS | LeU | GeU.

(** 2.4: instructions *)
Inductive instr :=
| IUnreachable
| IBlock (body : list instr)
| ILoop (body : list instr)
| IBr (label : nat)
| IBrIf (label : nat)
| IBrTable (labels : list nat) (default : nat)
| IReturn
| ICall (f : nat)
| ISelect
| ILGet (x : nat) | ILSet (x : nat) | ILTee (x : nat)
| IGGet (x : nat) | IGSet (x : nat)
| ILoad (offset : N) | ILoad64 (offset : N) | ILoad8S (offset : N) | ILoad8U (offset : N)
| IStore (offset : N) | IStore64 (offset : N)
| IConst (v : N)
| IEqz
| IBin (op : binop).

(** 4.3.2: integer operations *)
Definition W : N := 4294967296.
Definition add32 (a b : N) : N := (a + b) mod W.
Definition sub32 (a b : N) : N := (W + a - b) mod W.
Definition mul32 (a b : N) : N := (a * b) mod W.
Definition ishl (a b : N) : N := N.shiftl a (b mod 32) mod W.
Definition ishr (a b : N) : N := N.shiftr a (b mod 32).
Definition irotl (a b : N) : N := N.lor (N.shiftl a (b mod 32) mod W) (N.shiftr a (32 - b mod 32)).
Definition signed (a : N) : Z := if a <? 2147483648 then Z.of_N a else (Z.of_N a - 4294967296)%Z.
Definition b2n (b : bool) : N := if b then 1 else 0.
Definition bin (op : binop) (a b : N) : N :=
  match op with
  | Add => add32 a b | Sub => sub32 a b | Mul => mul32 a b
  | And => N.land a b | Or => N.lor a b | Xor => N.lxor a b
  | Shl => ishl a b | ShrU => ishr a b | Rotl => irotl a b
  | Eq => b2n (a =? b) | Ne => b2n (negb (a =? b))
  | LtU => b2n (a <? b) | GtU => b2n (b <? a) | LeU => b2n (a <=? b) | GeU => b2n (b <=? a)
  | LtS => b2n (signed a <? signed b)%Z | GtS => b2n (signed b <? signed a)%Z | LeS => b2n (signed a <=? signed b)%Z
  end.

(** 4.2.8: memory, little-endian (4.3.1) *)
Definition memory := N -> N.
Fixpoint load (n : nat) (m : memory) (a : N) : N :=
  match n with O => 0 | S n' => m a + 256 * load n' m (a + 1) end.
Definition store (n : N) (m : memory) (a v : N) : memory :=
  fun x => if (a <=? x) && (x <? a + n) then (v / 256 ^ (x - a)) mod 256 else m x.
Definition load32 : memory -> N -> N := load 4.
Definition load64 : memory -> N -> N := load 8.
Definition store32 : memory -> N -> N -> memory := store 4.
Definition store64 : memory -> N -> N -> memory := store 8.
Definition load8s (m : memory) (a : N) : N := if m a <? 128 then m a else m a + 4294967040.

(** 4.2: a function, the parts of a module that its functions use, and a state of a run of one function *)
Record func := Func { fn_params : nat; fn_results : nat; fn_locals : nat; fn_body : list instr }.
Record env := Env { e_funcs : list func; e_limit : N }.
Record st := St { locals : list N; globals : list N; mem : memory; stack : list N }.

(** 4.4.1-4.4.3: numeric, parametric and variable instructions *)
Definition pure (i : instr) (s : st) : option st :=
  let '(St l g m k) := s in
  match i with
  | IConst v => Some (St l g m (v :: k))
  | ILGet x => match nth_error l x with Some v => Some (St l g m (v :: k)) | None => None end
  | IGGet x => match nth_error g x with Some v => Some (St l g m (v :: k)) | None => None end
  | ILSet x => match k with v :: k' => Some (St (upd l x v) g m k') | _ => None end
  | ILTee x => match k with v :: k' => Some (St (upd l x v) g m k) | _ => None end
  | IGSet x => match k with v :: k' => Some (St l (upd g x v) m k') | _ => None end
  | IEqz => match k with v :: k' => Some (St l g m (b2n (v =? 0) :: k')) | _ => None end
  | IBin op => match k with b :: a :: k' => Some (St l g m (bin op a b :: k')) | _ => None end
  | ISelect => match k with c :: b :: a :: k' => Some (St l g m ((if c =? 0 then b else a) :: k')) | _ => None end
  | _ => None
  end.

(** 4.4.4: memory instructions: the address and number of bytes accessed, and the state after *)
Definition access (i : instr) (s : st) : option (N * N * st) :=
  let '(St l g m k) := s in
  match i with
  | ILoad o => match k with a :: k' => Some (a + o, 4, St l g m (load32 m (a + o) :: k')) | _ => None end
  | ILoad64 o => match k with a :: k' => Some (a + o, 8, St l g m (load64 m (a + o) :: k')) | _ => None end
  | ILoad8S o => match k with a :: k' => Some (a + o, 1, St l g m (load8s m (a + o) :: k')) | _ => None end
  | ILoad8U o => match k with a :: k' => Some (a + o, 1, St l g m (m (a + o) :: k')) | _ => None end
  | IStore o => match k with v :: a :: k' => Some (a + o, 4, St l g (store32 m (a + o) v) k') | _ => None end
  | IStore64 o => match k with v :: a :: k' => Some (a + o, 8, St l g (store64 m (a + o) v) k') | _ => None end
  | _ => None
  end.

(** What a sequence of instructions ends with *)
Inductive outcome :=
| Done (s : st)
| Branch (label : nat) (s : st)
| Returned (s : st)
| Trap.

(** 4.4.7: leaving a block, and 4.4.8: leaving a function *)
Definition restack (s : st) (k : list N) : st := St (locals s) (globals s) (mem s) k.
Definition falls (o : outcome) : option st :=
  match o with Done s => Some s | Branch 0 s => Some s | _ => None end.
Definition leaves (o : outcome) : option outcome :=
  match o with Branch (S n) s => Some (Branch n s) | Returned s => Some (Returned s) | Trap => Some Trap | _ => None end.
Definition finished (o : outcome) : option st :=
  match o with Done s => Some s | Branch 0 s => Some s | Returned s => Some s | _ => None end.

(** The operands of a call, first argument first *)
Definition pop_args (n : nat) (k : list N) : option (list N * list N) :=
  if (n <=? length k)%nat then Some (rev (firstn n k), skipn n k) else None.
Definition enter (fn : func) (args g : list N) (m : memory) : st := St (args ++ repeat 0 (fn_locals fn)) g m [].

(** 4.4: execution *)
Inductive exec (M : env) : list instr -> st -> outcome -> Prop :=
| E_nil s : exec M [] s (Done s)
| E_pure i is s s' o : pure i s = Some s' -> exec M is s' o -> exec M (i :: is) s o
| E_access i is s a n s' o : access i s = Some (a, n, s') -> a + n <= e_limit M -> exec M is s' o -> exec M (i :: is) s o
| E_fault i is s a n s' : access i s = Some (a, n, s') -> e_limit M < a + n -> exec M (i :: is) s Trap
| E_unreachable is s : exec M (IUnreachable :: is) s Trap
| E_block_on b is s o1 s1 o : exec M b (restack s []) o1 -> falls o1 = Some s1 ->
    exec M is (restack s1 (stack s)) o -> exec M (IBlock b :: is) s o
| E_block_out b is s o1 o : exec M b (restack s []) o1 -> leaves o1 = Some o -> exec M (IBlock b :: is) s o
| E_loop_on b is s s1 o : exec M b (restack s []) (Done s1) ->
    exec M is (restack s1 (stack s)) o -> exec M (ILoop b :: is) s o
| E_loop_again b is s s1 o : exec M b (restack s []) (Branch 0 s1) ->
    exec M (ILoop b :: is) (restack s1 (stack s)) o -> exec M (ILoop b :: is) s o
| E_loop_out b is s o1 o : exec M b (restack s []) o1 -> leaves o1 = Some o -> exec M (ILoop b :: is) s o
| E_br n is s : exec M (IBr n :: is) s (Branch n s)
| E_br_if n is l g m c k : c <> 0 -> exec M (IBrIf n :: is) (St l g m (c :: k)) (Branch n (St l g m k))
| E_br_if_not n is l g m k o : exec M is (St l g m k) o -> exec M (IBrIf n :: is) (St l g m (0 :: k)) o
| E_br_table ns d is l g m c k :
    exec M (IBrTable ns d :: is) (St l g m (c :: k)) (Branch (nth (N.to_nat c) ns d) (St l g m k))
| E_return is s : exec M (IReturn :: is) s (Returned s)
| E_call f is s fn args k o1 s1 o : nth_error (e_funcs M) f = Some fn -> pop_args (fn_params fn) (stack s) = Some (args, k) ->
    exec M (fn_body fn) (enter fn args (globals s) (mem s)) o1 -> finished o1 = Some s1 ->
    exec M is (St (locals s) (globals s1) (mem s1) (firstn (fn_results fn) (stack s1) ++ k)) o ->
    exec M (ICall f :: is) s o
| E_call_trap f is s fn args k : nth_error (e_funcs M) f = Some fn -> pop_args (fn_params fn) (stack s) = Some (args, k) ->
    exec M (fn_body fn) (enter fn args (globals s) (mem s)) Trap -> exec M (ICall f :: is) s Trap.

(** 4.5.5: invocation of a function: its results, and the globals and memory after it, or a trap *)
Inductive invoke (M : env) (f : nat) (args g : list N) (m : memory) : option (list N * list N * memory) -> Prop :=
| Invoked fn o s : nth_error (e_funcs M) f = Some fn -> length args = fn_params fn ->
    exec M (fn_body fn) (enter fn args g m) o -> finished o = Some s ->
    invoke M f args g m (Some (firstn (fn_results fn) (stack s), globals s, mem s))
| Trapped fn : nth_error (e_funcs M) f = Some fn -> length args = fn_params fn ->
    exec M (fn_body fn) (enter fn args g m) Trap -> invoke M f args g m None.
