(** * Valid WebAssembly modules

    After the WebAssembly core specification 1.0, chapter 3 (numbers below are its sections), for modules that
    [WebasmBin.decode] reads: those have values of type i32 in locals, globals, parameters and results, and blocks of
    the empty type.  An engine must accept a valid module (4.5.4, and the JavaScript interface). *)
From Coq Require Import ZArith.
From Verif Require Import Prim Webasm WebasmBin.
Local Open Scope bin_scope.

(** ** Instructions with what validation looks at: the type of a constant, the alignment of an access *)
Inductive tinstr :=
| TI (i : instr)
| TConst64 (v : N)
| TMem (align : N) (i : instr)
| TBlock (body : list tinstr)
| TLoop (body : list tinstr).

(** 5.4: as [WebasmBin.leaf] and [WebasmBin.instrs] *)
Definition tleaf (x : N) (r : list N) : option (tinstr * list N) :=
  match memarg x with
  | Some f => let! (a, r) := u32 r in let! (o, r) := u32 r in Some (TMem a (f o), r)
  | None => if x =? 0x42 then let! (v, r) := s64 r in Some (TConst64 v, r)
            else let! (i, r) := leaf x r in Some (TI i, r)
  end.
Fixpoint tinstrs (fuel : nat) (bs : list N) : option (list tinstr * list N) :=
  match fuel, bs with
  | S n, x :: r =>
      if x =? 0x0B then Some ([], r)
      else if (x =? 0x02) || (x =? 0x03) then
        let! r := byte 0x40 r in
        let! (b, r) := tinstrs n r in
        let! (k, r) := tinstrs n r in Some ((if x =? 0x02 then TBlock b else TLoop b) :: k, r)
      else let! (i, r) := tleaf x r in let! (k, r) := tinstrs n r in Some (i :: k, r)
  | _, _ => None
  end.
Definition tcode (bs : list N) : option (nat * list tinstr * list N) :=
  let! (size, r) := u32 bs in
  let! (body, r) := take size r in
  let! (ls, body) := vec locals_of body in
  let! (is, rest) := tinstrs (length body) body in
  match rest with [] => Some (fold_right Nat.add 0%nat ls, is, r) | _ => None end.
(** The table section and the code section of a file *)
Definition tables_and_code (bs : list N) : option (list (N * N) * list (nat * list tinstr)) :=
  let! (_, r) := take 8 bs in
  let! (_, r) := section 1 r in
  let! (_, r) := section 3 r in
  let! (tables, r) := section 4 r in
  let! (_, r) := section 5 r in
  let! (_, r) := section 6 r in
  let! (_, r) := section 7 r in
  let! (codes, r) := section 10 r in
  let! tables := whole (vec table) tables in
  let! codes := whole (vec tcode) codes in Some (tables, codes).

(** The instructions that run *)
Fixpoint erase (t : tinstr) : instr :=
  match t with
  | TI i => i
  | TConst64 v => IConst v
  | TMem _ i => i
  | TBlock b => IBlock (map erase b)
  | TLoop b => ILoop (map erase b)
  end.

(** ** 3.3: instructions.  Stacks of types, the top first *)
Inductive vtype := T32 | T64.
Definition i32s (n : nat) : list vtype := repeat T32 n.
(** 3.1.1: functions (parameters and results), globals (whether they can be set), number of memories, number of
    locals; for each label the number of results of its block (none for a loop), innermost first; of the function *)
Record context := Context {
  c_funcs : list (nat * nat); c_globals : list bool; c_memories : nat; c_locals : nat; c_labels : list nat; c_return : nat }.
Definition in_block (C : context) : context :=
  Context (c_funcs C) (c_globals C) (c_memories C) (c_locals C) (0%nat :: c_labels C) (c_return C).

Inductive itype (C : context) : tinstr -> list vtype -> list vtype -> Prop :=
| V_const v : itype C (TI (IConst v)) [] [T32]
| V_const64 v : itype C (TConst64 v) [] [T64]
| V_eqz : itype C (TI IEqz) [T32] [T32]
| V_bin op : itype C (TI (IBin op)) [T32; T32] [T32]
| V_select t : itype C (TI ISelect) [T32; t; t] [t]
| V_local_get x : (x < c_locals C)%nat -> itype C (TI (ILGet x)) [] [T32]
| V_local_set x : (x < c_locals C)%nat -> itype C (TI (ILSet x)) [T32] []
| V_local_tee x : (x < c_locals C)%nat -> itype C (TI (ILTee x)) [T32] [T32]
| V_global_get x mut : nth_error (c_globals C) x = Some mut -> itype C (TI (IGGet x)) [] [T32]
| V_global_set x : nth_error (c_globals C) x = Some true -> itype C (TI (IGSet x)) [T32] []
| V_load a o : (0 < c_memories C)%nat -> 2 ^ a <= 4 -> itype C (TMem a (ILoad o)) [T32] [T32]
| V_load64 a o : (0 < c_memories C)%nat -> 2 ^ a <= 8 -> itype C (TMem a (ILoad64 o)) [T32] [T64]
| V_load8s a o : (0 < c_memories C)%nat -> 2 ^ a <= 1 -> itype C (TMem a (ILoad8S o)) [T32] [T32]
| V_load8u a o : (0 < c_memories C)%nat -> 2 ^ a <= 1 -> itype C (TMem a (ILoad8U o)) [T32] [T32]
| V_store a o : (0 < c_memories C)%nat -> 2 ^ a <= 4 -> itype C (TMem a (IStore o)) [T32; T32] []
| V_store64 a o : (0 < c_memories C)%nat -> 2 ^ a <= 8 -> itype C (TMem a (IStore64 o)) [T64; T32] []
| V_unreachable a b : itype C (TI IUnreachable) a b
| V_block is : stype (in_block C) is [] [] -> itype C (TBlock is) [] []
| V_loop is : stype (in_block C) is [] [] -> itype C (TLoop is) [] []
| V_br n k a b : nth_error (c_labels C) n = Some k -> itype C (TI (IBr n)) (i32s k ++ a) b
| V_br_if n k : nth_error (c_labels C) n = Some k -> itype C (TI (IBrIf n)) (T32 :: i32s k) (i32s k)
| V_br_table ns d k a b : Forall (fun n => nth_error (c_labels C) n = Some k) (d :: ns) ->
    itype C (TI (IBrTable ns d)) (T32 :: i32s k ++ a) b
| V_return a b : itype C (TI IReturn) (i32s (c_return C) ++ a) b
| V_call f p r : nth_error (c_funcs C) f = Some (p, r) -> itype C (TI (ICall f)) (i32s p) (i32s r)
(** 3.3.6: sequences *)
with stype (C : context) : list tinstr -> list vtype -> list vtype -> Prop :=
| V_nil k : stype C [] k k
| V_cons i is a b k c : itype C i a b -> stype C is (b ++ k) c -> stype C (i :: is) (a ++ k) c.

(** ** 3.4: modules *)
Definition function_types (w : wmodule) : list (nat * nat) := map (fun t => nth t (w_types w) (0, 0)%nat) (w_funcs w).
Definition context_of (w : wmodule) (locals results : nat) : context :=
  Context (function_types w) (map fst (w_globals w)) (length (w_memory w)) locals [results] results.
Definition export_ok (w : wmodule) (tables : list (N * N)) (e : list N * N * nat) : Prop :=
  let '(_, kind, i) := e in
  (kind = 0 /\ (i < length (w_funcs w))%nat) \/ (kind = 1 /\ (i < length tables)%nat) \/
  (kind = 2 /\ (i < length (w_memory w))%nat) \/ (kind = 3 /\ (i < length (w_globals w))%nat).
Definition valid (bs : list N) (w : wmodule) : Prop :=
  decode bs = Some w /\
  exists tables codes, tables_and_code bs = Some (tables, codes) /\
    w_code w = map (fun c => (fst c, map erase (snd c))) codes /\
    Forall (fun t => (snd t <= 1)%nat) (w_types w) /\
    Forall (fun t => (t < length (w_types w))%nat) (w_funcs w) /\
    (length tables <= 1)%nat /\ Forall (fun t => fst t <= snd t) tables /\
    (length (w_memory w) <= 1)%nat /\ Forall (fun n => n <= 65536) (w_memory w) /\
    NoDup (map (fun e => fst (fst e)) (w_exports w)) /\ Forall (export_ok w tables) (w_exports w) /\
    (w_data w <> [] -> w_memory w <> []) /\
    Forall2 (fun t c => let '(p, r) := t in stype (context_of w (p + fst c) r) (snd c) [] (i32s r)) (function_types w) codes.

(** 4.5.4: the data segments must fit in the memory *)
Definition fits (w : wmodule) : Prop := Forall (fun d => fst d + N.of_nat (length (snd d)) <= memory_size w) (w_data w).
