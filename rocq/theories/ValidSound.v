(** * Valid code does not get stuck *)
From Coq Require Import ZArith.
From Verif Require Import PrimFacts Webasm WebasmLogic WebasmRun WebasmBin SpecValid SpecCompiledPage.

Section Module.
Variables (M : env) (FT : list (nat * nat)) (G : list bool) (mems : nat).
Hypothesis funcs_ok : forall f p r, nth_error FT f = Some (p, r) ->
  exists fn b, nth_error (e_funcs M) f = Some fn /\ fn_params fn = p /\ fn_results fn = r /\ fn_body fn = map erase b /\
    stype (Context FT G mems (p + fn_locals fn) [r] r) b [] (i32s r).

Definition base (C : context) (s : st) : Prop := length (locals s) = c_locals C /\ length (globals s) = length G.
Definition shape (C : context) (s : st) (k : list vtype) : Prop := base C s /\ length (stack s) = length k.
Definition good (C : context) (k : list vtype) (r : result) : Prop :=
  match r with
  | Out (Done s) => shape C s k
  | Out (Branch l s) => base C s /\ exists j, nth_error (c_labels C) l = Some j /\ (j <= length (stack s))%nat
  | Out (Returned s) => base C s /\ (c_return C <= length (stack s))%nat
  | Out Trap => True
  | Stuck => False
  | More => True
  end.
Definition within (C : context) : Prop := c_funcs C = FT /\ c_globals C = G.

Lemma i32s_length n : length (i32s n) = n.
Proof. apply repeat_length. Qed.

(** Instructions without control *)
Definition straight (i : instr) : Prop := match i with
  | IUnreachable | IBlock _ | ILoop _ | IBr _ | IBrIf _ | IBrTable _ _ | IReturn | ICall _ => False | _ => True end.
Lemma straight_ok C t a b k s : within C -> itype C t a b -> straight (erase t) -> shape C s (a ++ k) ->
  (exists s', pure (erase t) s = Some s' /\ shape C s' (b ++ k)) \/
  (pure (erase t) s = None /\ exists x n s', access (erase t) s = Some (x, n, s') /\ shape C s' (b ++ k)).
Proof.
  intros (_ & WG) T Hs ((HL & HG) & HS). destruct s as [l g m st]. cbn [locals globals stack] in *.
  destruct T; cbn [erase straight] in Hs; try contradiction; cbn [erase pure access app length] in *;
    repeat match goal with H : length ?x = S _ |- _ => destruct x as [|? x]; [discriminate H|]; cbn [length] in H; injection H as H end.
  all: try (right; split; [reflexivity|]; do 3 eexists; split; [reflexivity|]; split; [split; assumption|]; cbn [stack length app]; congruence).
  all: try (left; eexists; split; [reflexivity|]; split; [split; [cbn [locals]; rewrite ?upd_length; assumption|cbn [globals]; rewrite ?upd_length; assumption]|]; cbn [stack length app]; congruence).
  - left. destruct (nth_error l x) as [v|] eqn:E; [|apply nth_error_None in E; lia]. eexists. split; [reflexivity|]. split; [split; assumption|]. cbn. congruence.
  - left. destruct (nth_error g x) as [v|] eqn:E; [|apply nth_error_None in E; assert (X : (x < length (c_globals C))%nat) by (apply nth_error_Some; congruence); rewrite WG in X; lia].
    eexists. split; [reflexivity|]. split; [split; assumption|]. cbn. congruence.
Qed.

Lemma run_straight n i is s : straight i ->
  run (S n) M (i :: is) s = match pure i s with
    | Some s' => run n M is s'
    | None => match access i s with Some (a, k, s') => if a + k <=? e_limit M then run n M is s' else Out Trap | None => Stuck end
    end.
Proof. intros H. destruct i; try contradiction; reflexivity. Qed.

Lemma run_good n : forall C is k k' s, within C -> stype C is k k' -> shape C s k -> good C k' (run n M (map erase is) s).
Proof.
  induction n as [|n IH]; intros C is k k' s HC HT HS; [exact Logic.I|].
  destruct HT as [k|i is a b k0 k' HI HT]; [exact HS|]. cbn [map].
  assert (D : straight (erase i) \/ ~ straight (erase i)) by (destruct (erase i); cbn; tauto). destruct D as [D|D].
  { rewrite (run_straight n _ _ _ D). destruct (straight_ok C i a b k0 s HC HI D HS) as [(s' & E & X)|(P & x & j & s' & E & X)].
    - rewrite E. exact (IH C is _ k' s' HC HT X).
    - rewrite P, E. destruct (x + j <=? e_limit M); [|exact Logic.I]. exact (IH C is _ k' s' HC HT X). }
  assert (W : within (in_block C)) by exact HC.
  assert (B : forall b0, stype (in_block C) b0 [] [] -> good (in_block C) [] (run n M (map erase b0) (restack s []))).
  { intros b0 T. apply (IH _ _ [] [] _ W T). split; [apply HS|reflexivity]. }
  assert (R : forall s1 st', base C s1 -> length st' = length (b ++ k0) -> good C k' (run n M (map erase is) (restack s1 st'))).
  { intros s1 st' X Y. apply (IH C is _ k' _ HC HT). split; [exact X|exact Y]. }
  destruct HS as (HB & HS). rewrite app_length in HS.
  destruct HI; cbn [erase straight] in D; try (exfalso; tauto); clear D; cbn [erase run].
  - exact Logic.I.
  - specialize (B _ H). destruct (run n M (map erase is0) (restack s [])) as [[s1|[|l] s1|s1|]| |]; cbn [good] in B |- *; try exact B.
    + apply R; [apply B|exact HS].
    + apply R; [apply B|exact HS].
  - specialize (B _ H). destruct (run n M (map erase is0) (restack s [])) as [[s1|[|l] s1|s1|]| |]; cbn [good] in B |- *; try exact B.
    + apply R; [apply B|exact HS].
    + apply (IH C (TLoop is0 :: is) k0 k' _ HC); [|split; [apply B|exact HS]].
      change k0 with ([] ++ k0) at 1. econstructor; [apply V_loop; exact H|exact HT].
  - cbn [good]. split; [exact HB|]. exists k. split; [exact H|]. rewrite app_length, i32s_length in HS. lia.
  - cbn [length] in HS. rewrite i32s_length in HS. destruct (stack s) as [|c st'] eqn:E; [discriminate|]. cbn [length Nat.add] in HS. injection HS as HS.
    destruct (c =? 0); [apply R; [exact HB|rewrite app_length, i32s_length; exact HS]|]. cbn [good]. split; [exact HB|]. exists k. split; [exact H|]. cbn. lia.
  - cbn [length] in HS. rewrite app_length, i32s_length in HS. destruct (stack s) as [|c st'] eqn:E; [discriminate|]. cbn [length Nat.add] in HS. injection HS as HS.
    cbn [good]. split; [exact HB|]. exists k. split; [|cbn; lia]. inversion H as [|? ? Hd Hns]; subst.
    destruct (Nat.lt_ge_cases (N.to_nat c) (length ns)) as [L|L]; [|rewrite nth_overflow by exact L; exact Hd].
    rewrite Forall_forall in Hns. apply Hns. apply nth_In. exact L.
  - cbn [good]. split; [exact HB|]. rewrite app_length, i32s_length in HS. lia.
  - destruct HC as (HF & HG). rewrite HF in H. destruct (funcs_ok f p r H) as (fn & fb & F & P & Q & Eb & T). rewrite F, P. rewrite i32s_length in HS.
    unfold pop_args. destruct (Nat.leb_spec p (length (stack s))) as [L|L]; [|lia]. rewrite Eb.
    assert (X := IH (Context FT G mems (p + fn_locals fn) [r] r) fb [] (i32s r) (enter fn (rev (firstn p (stack s))) (globals s) (mem s)) (conj eq_refl eq_refl) T).
    assert (Y : shape (Context FT G mems (p + fn_locals fn) [r] r) (enter fn (rev (firstn p (stack s))) (globals s) (mem s)) []).
    { split; [split; [|apply HB]|reflexivity]. cbn [locals enter c_locals]. rewrite app_length, rev_length, firstn_length, repeat_length. lia. }
    specialize (X Y). clear Y.
    assert (Z : forall s1, length (globals s1) = length G -> (r <= length (stack s1))%nat ->
      good C k' (run n M (map erase is) (St (locals s) (globals s1) (mem s1) (firstn (fn_results fn) (stack s1) ++ skipn p (stack s))))).
    { intros s1 Y1 Y2. apply (IH C is _ k' _ (conj HF HG) HT). split; [split; [apply HB|exact Y1]|]. cbn [stack]. rewrite Q, !app_length, firstn_length, skipn_length, i32s_length. lia. }
    destruct (run n M (map erase fb) (enter fn (rev (firstn p (stack s))) (globals s) (mem s))) as [[s1|[|l] s1|s1|]| |]; cbn [good c_labels c_return] in X |- *; try exact X.
    + apply Z; [apply X|]. destruct X as (_ & X). rewrite i32s_length in X. lia.
    + apply Z; [apply X|]. destruct X as (_ & j & E & X). injection E as <-. exact X.
    + destruct X as (_ & j & E & _). destruct l; discriminate E.
    + apply Z; [apply X|apply X].
Qed.

(** A function of the module, called with as many arguments as it has parameters: it never gets stuck, and when it
    returns it has as many results as its type says *)
Lemma call_good f p r g m args n : nth_error FT f = Some (p, r) -> length args = p -> length g = length G ->
  exists fn, nth_error (e_funcs M) f = Some fn /\ fn_params fn = p /\ fn_results fn = r /\
    match run n M (fn_body fn) (enter fn args g m) with
    | Stuck => False
    | Out o => o = Trap \/ exists s, finished o = Some s /\ (r <= length (stack s))%nat /\ length (globals s) = length G
    | More => True
    end.
Proof.
  intros F A L. destruct (funcs_ok f p r F) as (fn & fb & E & P & Q & Eb & T). exists fn. split; [exact E|]. split; [exact P|]. split; [exact Q|].
  rewrite Eb. assert (X := run_good n (Context FT G mems (p + fn_locals fn) [r] r) fb [] (i32s r) (enter fn args g m) (conj eq_refl eq_refl) T).
  assert (Y : shape (Context FT G mems (p + fn_locals fn) [r] r) (enter fn args g m) []).
  { split; [split; [|exact L]|reflexivity]. cbn [locals enter c_locals]. rewrite app_length, repeat_length. lia. }
  specialize (X Y). destruct (run n M (map erase fb) (enter fn args g m)) as [[s1|[|l] s1|s1|]| |]; cbn [good c_labels c_return] in X; try exact X.
  - right. exists s1. split; [reflexivity|]. destruct X as ((_ & X2) & X). rewrite i32s_length in X. split; [lia|exact X2].
  - right. exists s1. split; [reflexivity|]. destruct X as ((_ & X2) & j & Ej & X). injection Ej as <-. split; [exact X|exact X2].
  - destruct X as (_ & j & Ej & _). destruct l; discriminate Ej.
  - right. exists s1. split; [reflexivity|]. destruct X as ((_ & X2) & X). split; [exact X|exact X2].
  - left. reflexivity.
Qed.
End Module.

(** ** The functions of a valid module *)
Lemma functions_ok w codes : w_code w = map (fun c => (fst c, map erase (snd c))) codes ->
  Forall2 (fun t c => let '(p, r) := t in stype (context_of w (p + fst c) r) (snd c) [] (i32s r)) (function_types w) codes ->
  forall f p r, nth_error (function_types w) f = Some (p, r) ->
    exists fn b, nth_error (functions w) f = Some fn /\ fn_params fn = p /\ fn_results fn = r /\ fn_body fn = map erase b /\
      stype (Context (function_types w) (map fst (w_globals w)) (length (w_memory w)) (p + fn_locals fn) [r] r) b [] (i32s r).
Proof.
  intros E H.
  unfold functions. rewrite E. remember (context_of w) as CT eqn:ECT. clear E. unfold function_types in H |- *.
  assert (X : forall ts, Forall2 (fun t c => let '(p, r) := t in stype (CT (p + fst c)%nat r) (snd c) [] (i32s r)) (map (fun t => nth t (w_types w) (0, 0)%nat) ts) codes ->
    forall f p r, nth_error (map (fun t => nth t (w_types w) (0, 0)%nat) ts) f = Some (p, r) ->
    exists fn b, nth_error (map (fun x => let '(t, (ls, is)) := x in let '(ps, rs) := nth t (w_types w) (0, 0)%nat in Func ps rs ls is)
        (combine ts (map (fun c => (fst c, map erase (snd c))) codes))) f = Some fn /\ fn_params fn = p /\ fn_results fn = r /\ fn_body fn = map erase b /\
      stype (CT (p + fn_locals fn)%nat r) b [] (i32s r)).
  { clear H. intros ts. revert ts codes. induction ts as [|t ts IH]; intros cs H f p r Hf; [destruct f; discriminate|].
    cbn [map] in H. inversion H as [|? c ? cs' Ht H']; subst. cbn [map combine]. destruct f as [|f]; cbn [nth_error map] in Hf |- *.
    - injection Hf as Hf. rewrite Hf in Ht |- *. exists (Func p r (fst c) (map erase (snd c))), (snd c). repeat split. exact Ht.
    - exact (IH cs' H' f p r Hf). }
  specialize (X (w_funcs w) H). rewrite ECT in X. exact X.
Qed.

Theorem valid_runs bs w f p r args g m : valid bs w -> nth_error (function_types w) f = Some (p, r) -> length args = p -> length g = length (w_globals w) ->
  (forall n fn, nth_error (functions w) f = Some fn -> run n (module_env w) (fn_body fn) (enter fn args g m) <> Stuck) /\
  (forall res g' m', invoke (module_env w) f args g m (Some (res, g', m')) -> length res = r /\ length g' = length g).
Proof.
  intros (_ & tables & codes & _ & E & _ & _ & _ & _ & _ & _ & _ & _ & _ & T) F A L.
  assert (L' : length g = length (map fst (w_globals w))) by (rewrite map_length; exact L).
  assert (X := fun n => call_good (module_env w) (function_types w) (map fst (w_globals w)) (length (w_memory w)) (functions_ok w codes E T) f p r g m args n F A L').
  split.
  - intros n fn Hf. destruct (X n) as (fn' & Hf' & _ & _ & Y). cbn [module_env e_funcs] in Hf'. rewrite Hf in Hf'. injection Hf' as <-.
    intros Z. rewrite Z in Y. exact Y.
  - intros res g' m' I. inversion I as [fn o s Hf _ Ex Fi Er|]. subst. apply run_is_exec in Ex. destruct Ex as (n & Ex).
    destruct (X n) as (fn' & Hf' & _ & Q & Y). rewrite Hf in Hf'. injection Hf' as <-. rewrite Ex in Y. destruct Y as [->|(s' & Fs & Y1 & Y2)]; [discriminate|].
    rewrite Fi in Fs. injection Fs as <-. split; [rewrite firstn_length; lia|congruence].
Qed.
