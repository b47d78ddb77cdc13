(** * demo.wasm is a valid module *)
From Coq Require Import ZArith.
From Verif Require Import PrimFacts Webasm WebasmBin SpecValid SpecCompiled DemoCode DemoFile CompiledFile.
Local Open Scope bin_scope.

(** ** Checking types *)
Definition vtype_eqb (a b : vtype) : bool := match a, b with T32, T32 => true | T64, T64 => true | _, _ => false end.
Lemma vtype_eqb_eq a b : vtype_eqb a b = true -> a = b.
Proof. destruct a, b; cbn; congruence. Qed.
(** What is left when these types are taken off the stack *)
Fixpoint pop (a k : list vtype) : option (list vtype) :=
  match a, k with
  | [], _ => Some k
  | x :: a', y :: k' => if vtype_eqb x y then pop a' k' else None
  | _, _ => None
  end.
Lemma pop_app a : forall k k', pop a k = Some k' -> k = a ++ k'.
Proof.
  induction a as [|x a IH]; intros k k' H; cbn in H; [injection H as <-; reflexivity|].
  destruct k as [|y k]; [discriminate|]. destruct (vtype_eqb x y) eqn:E; [|discriminate].
  rewrite (vtype_eqb_eq _ _ E), (IH _ _ H). reflexivity.
Qed.
(** An instruction takes [a] and leaves [b], or does not go on *)
Definition moves (a b k : list vtype) : option (option (list vtype)) :=
  match pop a k with Some k' => Some (Some (b ++ k')) | None => None end.
Definition stops (a k : list vtype) : option (option (list vtype)) :=
  match pop a k with Some _ => Some None | None => None end.
Definition when (c : bool) (r : option (option (list vtype))) : option (option (list vtype)) := if c then r else None.

Definition check_mem (C : context) (a : N) (i : instr) (k : list vtype) : option (option (list vtype)) :=
  when (0 <? c_memories C)%nat
  match i with
  | ILoad _ => when (2 ^ a <=? 4) (moves [T32] [T32] k)
  | ILoad64 _ => when (2 ^ a <=? 8) (moves [T32] [T64] k)
  | ILoad8S _ | ILoad8U _ => when (2 ^ a <=? 1) (moves [T32] [T32] k)
  | IStore _ => when (2 ^ a <=? 4) (moves [T32; T32] [] k)
  | IStore64 _ => when (2 ^ a <=? 8) (moves [T64; T32] [] k)
  | _ => None
  end.
Definition label_is (C : context) (k n : nat) : bool := match nth_error (c_labels C) n with Some j => Nat.eqb j k | None => false end.
Definition check_plain (C : context) (i : instr) (k : list vtype) : option (option (list vtype)) :=
  match i with
  | IConst _ => moves [] [T32] k
  | IEqz => moves [T32] [T32] k
  | IBin _ => moves [T32; T32] [T32] k
  | ISelect => match k with T32 :: t :: _ => moves [T32; t; t] [t] k | _ => None end
  | ILGet x => when (x <? c_locals C)%nat (moves [] [T32] k)
  | ILSet x => when (x <? c_locals C)%nat (moves [T32] [] k)
  | ILTee x => when (x <? c_locals C)%nat (moves [T32] [T32] k)
  | IGGet x => match nth_error (c_globals C) x with Some _ => moves [] [T32] k | None => None end
  | IGSet x => match nth_error (c_globals C) x with Some true => moves [T32] [] k | _ => None end
  | IUnreachable => stops [] k
  | IBr n => match nth_error (c_labels C) n with Some j => stops (i32s j) k | None => None end
  | IBrIf n => match nth_error (c_labels C) n with Some j => moves (T32 :: i32s j) (i32s j) k | None => None end
  | IBrTable ns d => match nth_error (c_labels C) d with
                     | Some j => when (forallb (label_is C j) ns) (stops (T32 :: i32s j) k) | None => None end
  | IReturn => stops (i32s (c_return C)) k
  | ICall f => match nth_error (c_funcs C) f with Some (p, r) => moves (i32s p) (i32s r) k | None => None end
  | _ => None
  end.
(** The only code that is never reached in demo.wasm is unreachable *)
Definition unreachable (t : tinstr) : bool := match t with TI IUnreachable => true | _ => false end.
Fixpoint check (C : context) (i : tinstr) (k : list vtype) {struct i} : option (option (list vtype)) :=
  let seq := fix seq (C : context) (is : list tinstr) (k : list vtype) {struct is} : option (option (list vtype)) :=
    match is with
    | [] => Some (Some k)
    | i :: is' => match check C i k with
                  | Some (Some k') => seq C is' k'
                  | Some None => if forallb unreachable is' then Some None else None
                  | None => None
                  end
    end in
  match i with
  | TI i => check_plain C i k
  | TConst64 _ => moves [] [T64] k
  | TMem a i => check_mem C a i k
  | TBlock b | TLoop b => match seq (in_block C) b [] with Some None | Some (Some []) => Some (Some k) | _ => None end
  end.
Fixpoint check_seq (C : context) (is : list tinstr) (k : list vtype) {struct is} : option (option (list vtype)) :=
  match is with
  | [] => Some (Some k)
  | i :: is' => match check C i k with
                | Some (Some k') => check_seq C is' k'
                | Some None => if forallb unreachable is' then Some None else None
                | None => None
                end
  end.

Definition sound (C : context) (i : tinstr) (k : list vtype) (r : option (option (list vtype))) : Prop :=
  match r with
  | Some (Some k') => exists a b k0, k = a ++ k0 /\ k' = b ++ k0 /\ itype C i a b
  | Some None => forall b, itype C i k b
  | None => True
  end.
Lemma moves_sound C i a b k : itype C i a b -> sound C i k (moves a b k).
Proof. intros H. unfold moves. destruct (pop a k) as [k'|] eqn:E; [|exact Logic.I]. exists a, b, k'. split; [exact (pop_app _ _ _ E)|]. split; [reflexivity|exact H]. Qed.
Lemma stops_sound C i a k : (forall k' b, itype C i (a ++ k') b) -> sound C i k (stops a k).
Proof. intros H. unfold stops. destruct (pop a k) as [k'|] eqn:E; [|exact Logic.I]. rewrite (pop_app _ _ _ E). exact (H k'). Qed.
Lemma when_sound C i k c r : (c = true -> sound C i k r) -> sound C i k (when c r).
Proof. intros H. destruct c; [exact (H eq_refl)|exact Logic.I]. Qed.

Lemma mem_sound C a i k : sound C (TMem a i) k (check_mem C a i k).
Proof.
  unfold check_mem. apply when_sound. intros M. apply Nat.ltb_lt in M.
  destruct i; try exact Logic.I; apply when_sound; intros A; apply N.leb_le in A; apply moves_sound; constructor; assumption.
Qed.
Lemma plain_sound C i k : sound C (TI i) k (check_plain C i k).
Proof.
  destruct i; cbn [check_plain]; try exact Logic.I;
    try (apply when_sound; intros A; apply Nat.ltb_lt in A); try (apply moves_sound; constructor; assumption).
  - apply stops_sound. intros k' b. constructor.
  - destruct (nth_error (c_labels C) label) as [j|] eqn:E; [|exact Logic.I]. apply stops_sound. intros k' b.
    constructor. exact E.
  - destruct (nth_error (c_labels C) label) as [j|] eqn:E; [|exact Logic.I]. apply moves_sound. constructor. exact E.
  - destruct (nth_error (c_labels C) default) as [j|] eqn:E; [|exact Logic.I]. apply when_sound. intros A. apply stops_sound. intros k' b.
    cbn [app]. constructor. constructor; [exact E|].
    rewrite forallb_forall in A. apply Forall_forall. intros n Hn. specialize (A n Hn). unfold label_is in A.
    destruct (nth_error (c_labels C) n) as [j'|]; [|discriminate]. apply Nat.eqb_eq in A. rewrite A. reflexivity.
  - apply stops_sound. intros k' b. constructor.
  - destruct (nth_error (c_funcs C) f) as [(p, r)|] eqn:E; [|exact Logic.I]. apply moves_sound. constructor. exact E.
  - destruct k as [|[|] [|t k]]; try exact Logic.I. apply moves_sound. constructor.
  - destruct (nth_error (c_globals C) x) as [u|] eqn:E; [|exact Logic.I]. apply moves_sound. econstructor. exact E.
  - destruct (nth_error (c_globals C) x) as [[|]|] eqn:E; try exact Logic.I. apply moves_sound. constructor. exact E.
Qed.

Definition seq_sound (C : context) (is : list tinstr) (k : list vtype) (r : option (option (list vtype))) : Prop :=
  match r with
  | Some (Some k') => stype C is k k'
  | Some None => forall k', stype C is k k'
  | None => True
  end.
Lemma cons_sound C i is k : sound C i k (check C i k) -> (forall k, seq_sound C is k (check_seq C is k)) ->
  seq_sound C (i :: is) k (check_seq C (i :: is) k).
Proof.
  intros H IH. cbn [check_seq]. destruct (check C i k) as [[k'|]|]; [| |exact Logic.I].
  - destruct H as (a & b & k0 & -> & -> & H). specialize (IH (b ++ k0)). destruct (check_seq C is (b ++ k0)) as [[k'|]|]; cbn in *; [| |exact Logic.I].
    + econstructor; eassumption.
    + intros k'. econstructor; [exact H|]. apply IH.
  - destruct (forallb unreachable is) eqn:U; [|exact Logic.I]. clear IH. intros k'. rewrite <- (app_nil_r k). econstructor; [apply (H k')|]. rewrite app_nil_r. clear - U.
    induction is as [|j is IH]; [constructor|]. cbn [forallb] in U. apply andb_true_iff in U. destruct j as [[]| | | |]; try (destruct U; discriminate).
    change k' with ([] ++ k') at 1. econstructor; [apply V_unreachable with (b := [])|]. apply IH. apply U.
Qed.

Fixpoint check_sound (i : tinstr) : forall C k, sound C i k (check C i k).
Proof.
  assert (S : forall is, (fix all (is : list tinstr) : Prop := match is with [] => True | i :: is' => (forall C k, sound C i k (check C i k)) /\ all is' end) is ->
    forall C k, seq_sound C is k (check_seq C is k)).
  { induction is as [|j is IH]; intros H C k; [constructor|]. apply cons_sound; [apply H|]. intros k'. apply IH. apply H. }
  assert (B : forall b C k r, seq_sound (in_block C) b [] r -> (stype (in_block C) b [] [] -> itype C i [] []) ->
    sound C i k (match r with Some None | Some (Some []) => Some (Some k) | _ => None end)).
  { intros b C k r H K. destruct r as [[[|t k']|]|]; try exact Logic.I; exists [], [], k; repeat split; apply K; [exact H|exact (H [])]. }
  destruct i as [i|v|a i|b|b]; intros C k.
  - apply plain_sound.
  - apply moves_sound. constructor.
  - apply mem_sound.
  - change (check C (TBlock b) k) with (match check_seq (in_block C) b [] with Some None | Some (Some []) => Some (Some k) | _ => None end).
    apply B with (b := b); [|apply V_block]. apply S. clear - check_sound. induction b as [|j b IH]; [exact Logic.I|split; [exact (check_sound j)|exact IH]].
  - change (check C (TLoop b) k) with (match check_seq (in_block C) b [] with Some None | Some (Some []) => Some (Some k) | _ => None end).
    apply B with (b := b); [|apply V_loop]. apply S. clear - check_sound. induction b as [|j b IH]; [exact Logic.I|split; [exact (check_sound j)|exact IH]].
Qed.
Lemma check_seq_sound C is : forall k, seq_sound C is k (check_seq C is k).
Proof. induction is as [|i is IH]; intros k; [constructor|]. apply cons_sound; [apply check_sound|exact IH]. Qed.

(** ** The functions of demo.wasm *)
Definition demo_ftypes : list (nat * nat) := map (fun t => nth t demo_types (0, 0)%nat) demo_sorts.
Definition demo_context (locals results : nat) : context := Context demo_ftypes (map fst demo_globals) 1 locals [results] results.
Definition check_code (t : nat * nat) (c : nat * list tinstr) : bool :=
  let '(p, r) := t in
  match check_seq (demo_context (p + fst c) r) (snd c) [] with
  | Some None => true
  | Some (Some k) => match pop (i32s r) k with Some [] => true | _ => false end
  | None => false
  end.
Lemma check_code_sound p r c : check_code (p, r) c = true -> stype (demo_context (p + fst c) r) (snd c) [] (i32s r).
Proof.
  unfold check_code. assert (H := check_seq_sound (demo_context (p + fst c) r) (snd c) []).
  destruct (check_seq _ _ _) as [[k|]|]; [| |discriminate]; cbn in H.
  - destruct (pop (i32s r) k) as [[|]|] eqn:E; try discriminate. intros _. rewrite (pop_app _ _ _ E), app_nil_r in H. exact H.
  - intros _. apply H.
Qed.
Fixpoint check_codes (ts : list (nat * nat)) (cs : list (nat * list tinstr)) : bool :=
  match ts, cs with
  | [], [] => true
  | t :: ts', c :: cs' => check_code t c && check_codes ts' cs'
  | _, _ => false
  end.
Lemma check_codes_sound ts : forall cs, check_codes ts cs = true ->
  Forall2 (fun t c => let '(p, r) := t in stype (demo_context (p + fst c) r) (snd c) [] (i32s r)) ts cs.
Proof.
  induction ts as [|(p, r) ts IH]; intros [|c cs] H; try discriminate; [constructor|]. cbn [check_codes] in H. apply andb_true_iff in H.
  constructor; [apply check_code_sound; apply H|apply IH; apply H].
Qed.

Definition codes_in (r : option (list (N * N) * list (nat * list tinstr))) := match r with Some (_, cs) => cs | None => [] end.
Definition demo_typed : list (nat * list tinstr) := codes_in (tables_and_code (firstn (N.to_nat 18066) demo_head)).
Lemma demo_typed_ok r : tables_and_code (firstn (N.to_nat 18066) demo_head ++ r) = Some ([(1, 1)], demo_typed).
Proof. vm_compute. reflexivity. Qed.
Lemma demo_checked : check_codes demo_ftypes demo_typed = true.
Proof. vm_cast_no_check (eq_refl true). Qed.
Lemma demo_erased : demo_code = map (fun c => (fst c, map erase (snd c))) demo_typed.
Proof. vm_cast_no_check (eq_refl demo_code). Qed.

Theorem demo_valid : valid demo_file demo_module.
Proof.
  split; [exact demo_decoded|]. exists [(1, 1)], demo_typed.
  split; [unfold demo_file; rewrite head_parts; rewrite <- app_assoc; apply demo_typed_ok|].
  split; [exact demo_erased|]. split; [repeat constructor|]. split; [repeat constructor|]. split; [repeat constructor|].
  split; [repeat constructor; discriminate|]. split; [repeat constructor|]. split; [repeat constructor; discriminate|].
  split; [cbn; repeat constructor; cbn; intuition discriminate|].
  split; [|split; [intros _; discriminate|exact (check_codes_sound _ _ demo_checked)]].
  change (Forall (fun e => let '(_, kind, i) := e in
    (kind = 0 /\ (i < 35)%nat) \/ (kind = 1 /\ (i < 1)%nat) \/ (kind = 2 /\ (i < 1)%nat) \/ (kind = 3 /\ (i < 3)%nat)) demo_exports).
  unfold demo_exports. repeat apply Forall_cons; try apply Forall_nil; lia.
Qed.
Theorem demo_fits : fits demo_module.
Proof.
  unfold fits. change (memory_size demo_module) with 2686976. cbn [w_data demo_module demo_data]. constructor; [|constructor; [|constructor]]; cbn [fst snd].
  - rewrite demo_length. discriminate.
  - rewrite fb_length. discriminate.
Qed.
