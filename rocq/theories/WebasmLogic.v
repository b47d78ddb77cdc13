(** * Reasoning about runs of WebAssembly code *)
From Coq Require Import ZArith.
From Verif Require Import PrimFacts Webasm.

(** ** A run has one outcome *)
Lemma pure_access i s : pure i s <> None -> access i s = None.
Proof. destruct s as [l g m k]. destruct i; cbn; try congruence. Qed.

Ltac det_step := match goal with
  | H1 : ?x = Some _, H2 : ?x = Some _ |- _ => rewrite H1 in H2; injection H2; clear H2; intros; subst
  | H1 : pure ?i ?s = Some _, H2 : access ?i ?s = Some _ |- _ =>
      rewrite (pure_access i s) in H2 by (rewrite H1; discriminate); discriminate
  end.

Theorem exec_det M is s o1 : exec M is s o1 -> forall o2, exec M is s o2 -> o1 = o2.
Proof.
  induction 1; intros o2 X; inversion X; subst; clear X; cbn [pure access] in *; try discriminate; try congruence;
    try (destruct s as [? ? ? ?]; cbn in *; congruence); repeat det_step; try lia; eauto;
    repeat match goal with
    | IH : forall o, exec ?M ?is ?s o -> ?r = o, H : exec ?M ?is ?s ?q |- _ =>
        lazymatch goal with E : r = q |- _ => fail | _ => assert (r = q) by (apply IH; exact H) end end; subst;
    cbn [falls leaves finished] in *; try discriminate; repeat det_step; eauto; try congruence.
  all: try (repeat match goal with H : falls ?o = Some _, K : leaves ?o = Some _ |- _ => destruct o as [?|[|?] ?|?|]; cbn in H, K; discriminate end).
  all: repeat match goal with
    | IH : forall o, exec ?M ?is ?s o -> ?r = o, H : exec ?M ?is ?s ?q |- _ =>
        lazymatch goal with E : r = q |- _ => fail | _ => assert (r = q) by (apply IH; exact H) end end; subst; try congruence; eauto.
  all: match goal with H : _ ?a = _ ?b |- _ => first [injection H as <-; eauto; fail | injection H as ->; eauto; fail] end.
Qed.

(** ** Postconditions *)
Definition wp (M : env) (is : list instr) (s : st) (Q : outcome -> Prop) : Prop := exists o, exec M is s o /\ Q o.

(** What is required at the end of a block with instructions [is] after it *)
Definition after (M : env) (is : list instr) (k : list N) (Q : outcome -> Prop) (o : outcome) : Prop :=
  match o with
  | Done s => wp M is (restack s k) Q
  | Branch O s => wp M is (restack s k) Q
  | Branch (S n) s => Q (Branch n s)
  | Returned s => Q (Returned s)
  | Trap => Q Trap
  end.

Section Rules.
Variable M : env.
Implicit Types (is b : list instr) (s : st) (Q : outcome -> Prop).

Lemma wp_nil s Q : Q (Done s) -> wp M [] s Q.
Proof. intros H. exists (Done s). split; [constructor|exact H]. Qed.

Lemma wp_pure i is s s' Q : pure i s = Some s' -> wp M is s' Q -> wp M (i :: is) s Q.
Proof. intros E (o & H & K). exists o. split; [eapply E_pure; eassumption|exact K]. Qed.

Lemma wp_access i is s a n s' Q : access i s = Some (a, n, s') -> a + n <= e_limit M -> wp M is s' Q -> wp M (i :: is) s Q.
Proof. intros E L (o & H & K). exists o. split; [eapply E_access; eassumption|exact K]. Qed.

Lemma wp_unreachable is s Q : Q Trap -> wp M (IUnreachable :: is) s Q.
Proof. intros H. exists Trap. split; [constructor|exact H]. Qed.

Lemma wp_block b is l g m k Q : wp M b (St l g m []) (after M is k Q) -> wp M (IBlock b :: is) (St l g m k) Q.
Proof.
  intros (o1 & H & K). destruct o1 as [s1|[|n] s1|s1|]; cbn [after] in K.
  - destruct K as (o & H' & K). exists o. split; [|exact K]. eapply E_block_on; [exact H|reflexivity|exact H'].
  - destruct K as (o & H' & K). exists o. split; [|exact K]. eapply E_block_on; [exact H|reflexivity|exact H'].
  - eexists. split; [|exact K]. eapply E_block_out; [exact H|reflexivity].
  - eexists. split; [|exact K]. eapply E_block_out; [exact H|reflexivity].
  - eexists. split; [|exact K]. eapply E_block_out; [exact H|reflexivity].
Qed.

(** A loop, with a measure: the body either leaves or goes on with something smaller *)
Definition again (b is : list instr) (k : list N) (Q R : outcome -> Prop) (o : outcome) : Prop :=
  match o with
  | Done s => wp M is (restack s k) Q
  | Branch O s => R (Branch O s)
  | Branch (S n) s => Q (Branch n s)
  | Returned s => Q (Returned s)
  | Trap => Q Trap
  end.
Lemma wp_loop b is k Q (I : nat -> st -> Prop) :
  (forall n l g m, I n (St l g m k) ->
     wp M b (St l g m []) (again b is k Q (fun o => match o with Branch _ s => exists n', (n' < n)%nat /\ I n' (restack s k) | _ => False end))) ->
  forall n l g m, I n (St l g m k) -> wp M (ILoop b :: is) (St l g m k) Q.
Proof.
  intros H n. induction n as [n IH] using (well_founded_induction lt_wf). intros l g m Hi.
  destruct (H n l g m Hi) as (o1 & X & K). destruct o1 as [s1|[|j] s1|s1|]; cbn [again] in K.
  - destruct K as (o & H' & K). exists o. split; [|exact K]. eapply E_loop_on; [exact X|exact H'].
  - destruct K as (n' & L & K). destruct (IH n' L _ _ _ K) as (o & H' & K').
    exists o. split; [|exact K']. eapply E_loop_again; [exact X|exact H'].
  - eexists. split; [|exact K]. eapply E_loop_out; [exact X|reflexivity].
  - eexists. split; [|exact K]. eapply E_loop_out; [exact X|reflexivity].
  - eexists. split; [|exact K]. eapply E_loop_out; [exact X|reflexivity].
Qed.

(** The same, for a loop run by induction on something else *)
Lemma wp_loop_step b is l g m k Q :
  wp M b (St l g m []) (again b is k Q (fun o => match o with Branch _ s => wp M (ILoop b :: is) (restack s k) Q | _ => False end)) ->
  wp M (ILoop b :: is) (St l g m k) Q.
Proof.
  intros (o1 & X & K). destruct o1 as [s1|[|j] s1|s1|]; cbn [again] in K.
  - destruct K as (o & H' & K). exists o. split; [|exact K]. eapply E_loop_on; [exact X|exact H'].
  - destruct K as (o & H' & K'). exists o. split; [|exact K']. eapply E_loop_again; [exact X|exact H'].
  - eexists. split; [|exact K]. eapply E_loop_out; [exact X|reflexivity].
  - eexists. split; [|exact K]. eapply E_loop_out; [exact X|reflexivity].
  - eexists. split; [|exact K]. eapply E_loop_out; [exact X|reflexivity].
Qed.

Lemma wp_br n is s Q : Q (Branch n s) -> wp M (IBr n :: is) s Q.
Proof. intros H. eexists. split; [constructor|exact H]. Qed.

Lemma wp_br_if n is l g m c k Q : (c <> 0 -> Q (Branch n (St l g m k))) -> (c = 0 -> wp M is (St l g m k) Q) ->
  wp M (IBrIf n :: is) (St l g m (c :: k)) Q.
Proof.
  intros H1 H0. destruct (N.eq_dec c 0) as [E|E].
  - destruct (H0 E) as (o & X & K). subst c. exists o. split; [constructor; exact X|exact K].
  - eexists. split; [apply E_br_if; exact E|exact (H1 E)].
Qed.

Lemma wp_if n is l g m (c : bool) k Q : (c = true -> Q (Branch n (St l g m k))) -> (c = false -> wp M is (St l g m k) Q) ->
  wp M (IBrIf n :: is) (St l g m (b2n c :: k)) Q.
Proof. intros H1 H0. apply wp_br_if; destruct c; cbn; intros E; try congruence; auto. Qed.
Lemma wp_taken n is l g m c k Q : c = true -> Q (Branch n (St l g m k)) -> wp M (IBrIf n :: is) (St l g m (b2n c :: k)) Q.
Proof. intros -> H. apply wp_if; intros E; [exact H|discriminate]. Qed.
Lemma wp_not_taken n is l g m c k Q : c = false -> wp M is (St l g m k) Q -> wp M (IBrIf n :: is) (St l g m (b2n c :: k)) Q.
Proof. intros -> H. apply wp_if; intros E; [discriminate|exact H]. Qed.

Lemma wp_br_table ns d is l g m c k Q : Q (Branch (nth (N.to_nat c) ns d) (St l g m k)) ->
  wp M (IBrTable ns d :: is) (St l g m (c :: k)) Q.
Proof. intros H. eexists. split; [constructor|exact H]. Qed.

Lemma wp_return is s Q : Q (Returned s) -> wp M (IReturn :: is) s Q.
Proof. intros H. eexists. split; [constructor|exact H]. Qed.

(** A function run on arguments, with a condition on globals, memory and result after it; [None] is a trap *)
Definition fwp (f : nat) (args g : list N) (m : memory) (R : option (list N * list N * memory) -> Prop) : Prop :=
  exists r, invoke M f args g m r /\ R r.

Lemma wp_call f is l g m k fn args k' Q :
  nth_error (e_funcs M) f = Some fn -> pop_args (fn_params fn) k = Some (args, k') ->
  fwp f args g m (fun r => match r with Some (vs, g', m') => wp M is (St l g' m' (vs ++ k')) Q | None => Q Trap end) ->
  wp M (ICall f :: is) (St l g m k) Q.
Proof.
  intros E P (r & X & K). destruct X as [fn' o s E' L X F|fn' E' L X]; rewrite E in E'; injection E' as <-.
  - destruct K as (o' & X' & K). exists o'. split; [|exact K].
    eapply (E_call M f is (St l g m k) fn args k' o s); eassumption.
  - exists Trap. split; [|exact K]. eapply (E_call_trap M f is (St l g m k) fn args k'); eassumption.
Qed.

Definition finish (n : nat) (R : option (list N * list N * memory) -> Prop) (o : outcome) : Prop :=
  match o with
  | Done s | Branch O s | Returned s => R (Some (firstn n (stack s), globals s, mem s))
  | Branch (S _) _ => False
  | Trap => R None
  end.
Lemma fwp_intro f fn args g m R : nth_error (e_funcs M) f = Some fn -> length args = fn_params fn ->
  wp M (fn_body fn) (enter fn args g m) (finish (fn_results fn) R) -> fwp f args g m R.
Proof.
  intros E L (o & X & K). destruct o as [s|[|n] s|s|]; try contradiction.
  - eexists. split; [exact (Invoked M f args g m fn (Done s) s E L X eq_refl)|exact K].
  - eexists. split; [exact (Invoked M f args g m fn (Branch 0 s) s E L X eq_refl)|exact K].
  - eexists. split; [exact (Invoked M f args g m fn (Returned s) s E L X eq_refl)|exact K].
  - eexists. split; [exact (Trapped M f args g m fn E L X)|exact K].
Qed.

Lemma invoke_det f args g m r1 r2 : invoke M f args g m r1 -> invoke M f args g m r2 -> r1 = r2.
Proof.
  intros X Y. destruct X as [fn o s E L X F|fn E L X]; destruct Y as [fn' o' s' E' L' X' F'|fn' E' L' X'];
    rewrite E in E'; injection E' as <-; assert (D := exec_det _ _ _ _ X _ X'); subst; try reflexivity; try discriminate.
  rewrite F in F'. injection F' as <-. reflexivity.
Qed.
(** The result is the only one *)
Lemma fwp_invoke f args g m v : fwp f args g m (fun r => r = v) -> forall r, invoke M f args g m r <-> r = v.
Proof. intros (r' & X & ->) r. split; [intros Y; exact (invoke_det _ _ _ _ _ _ Y X)|intros ->; exact X]. Qed.
Lemma fwp_mono f args g m (R R' : _ -> Prop) : (forall r, R r -> R' r) -> fwp f args g m R -> fwp f args g m R'.
Proof. intros H (r & X & K). exists r. auto. Qed.
Lemma wp_mono is s (Q Q' : outcome -> Prop) : (forall o, Q o -> Q' o) -> wp M is s Q -> wp M is s Q'.
Proof. intros H (o & X & K). exists o. auto. Qed.

(** Runs of pure instructions at once *)
Fixpoint runs (is : list instr) (s : st) : list instr * st :=
  match is with
  | [] => ([], s)
  | i :: is' => match pure i s with Some s' => runs is' s' | None => (is, s) end
  end.
Lemma wp_runs is s Q : wp M (fst (runs is s)) (snd (runs is s)) Q -> wp M is s Q.
Proof.
  revert s. induction is as [|i is IH]; intros s H; cbn [runs] in H; [exact H|].
  destruct (pure i s) as [s'|] eqn:E; [|exact H]. eapply wp_pure; [exact E|]. apply IH. exact H.
Qed.
End Rules.

(** ** Memory *)
Definition bytes_ok (m : memory) : Prop := forall a, m a < 256.

Lemma store_other n m a v x : x < a \/ a + n <= x -> store n m a v x = m x.
Proof. intros H. unfold store. destruct (N.leb_spec a x); destruct (N.ltb_spec x (a + n)); cbn [andb]; try reflexivity. lia. Qed.
Lemma store_at n m a v x : a <= x -> x < a + n -> store n m a v x = (v / 256 ^ (x - a)) mod 256.
Proof. intros H K. unfold store. destruct (N.leb_spec a x); destruct (N.ltb_spec x (a + n)); cbn [andb]; try reflexivity; lia. Qed.
Lemma store_ok n m a v : bytes_ok m -> bytes_ok (store n m a v).
Proof. intros H x. unfold store. destruct (_ && _); [apply N.mod_lt; lia|apply H]. Qed.

Lemma load_ext n m m' a : (forall x, a <= x -> x < a + N.of_nat n -> m' x = m x) -> load n m' a = load n m a.
Proof.
  revert a. induction n as [|n IH]; intros a H; cbn [load]; [reflexivity|].
  rewrite (H a) by lia. rewrite (IH (a + 1)); [reflexivity|]. intros x Hx Hy. apply H; lia.
Qed.
Lemma load_store_other n m a v k b : b + N.of_nat n <= a \/ a + k <= b -> load n (store k m a v) b = load n m b.
Proof. intros H. apply load_ext. intros x Hx Hy. apply store_other. lia. Qed.

Lemma load_lt n m a : bytes_ok m -> load n m a < 256 ^ N.of_nat n.
Proof.
  intros H. revert a. induction n as [|n IH]; intros a; [cbn; lia|].
  rewrite Nat2N.inj_succ, N.pow_succ_r'. cbn [load]. specialize (IH (a + 1)). specialize (H a). nia.
Qed.

(** Bytes of a value, low byte first *)
Lemma load_div n m a v : (forall x, a <= x -> x < a + N.of_nat n -> m x = (v / 256 ^ (x - a)) mod 256) ->
  load n m a = v mod 256 ^ N.of_nat n.
Proof.
  revert a v. induction n as [|n IH]; intros a v H; [cbn [load]; change (256 ^ N.of_nat 0) with 1; rewrite N.mod_1_r; reflexivity|].
  cbn [load]. rewrite (H a) by lia. rewrite N.sub_diag, N.pow_0_r, N.div_1_r.
  rewrite (IH (a + 1) (v / 256)).
  - rewrite Nat2N.inj_succ, N.pow_succ_r'. rewrite N.mod_mul_r by (try (apply N.pow_nonzero); lia). reflexivity.
  - intros x Hx Hy. rewrite (H x) by lia. replace (x - a) with (N.succ (x - (a + 1))) by lia.
    rewrite N.pow_succ_r'. rewrite <- N.div_div by (try (apply N.pow_nonzero); lia). reflexivity.
Qed.

Lemma load32_same m a v : v < W -> load32 (store32 m a v) a = v.
Proof.
  intros H. unfold load32, store32. rewrite (load_div 4 _ a v); [apply N.mod_small; exact H|].
  intros x Hx Hy. apply store_at; lia.
Qed.
Lemma load32_other m a v b : b + 4 <= a \/ a + 4 <= b -> load32 (store32 m a v) b = load32 m b.
Proof. intros H. apply load_store_other. lia. Qed.
Lemma load32_other64 m a v b : b + 4 <= a \/ a + 8 <= b -> load32 (store64 m a v) b = load32 m b.
Proof. intros H. apply load_store_other. lia. Qed.
Lemma load32_lt m a : bytes_ok m -> load32 m a < W.
Proof. intros H. exact (load_lt 4 m a H). Qed.
Lemma load64_parts m a : bytes_ok m -> load64 m a = load32 m a + W * load32 m (a + 4).
Proof. intros H. unfold load64, load32, W. cbn [load]. replace (a + 1 + 1 + 1 + 1) with (a + 4) by lia. lia. Qed.

Lemma store64_parts m a v : load32 (store64 m a v) a = v mod W /\ load32 (store64 m a v) (a + 4) = (v / W) mod W.
Proof.
  split; unfold load32, store64.
  - apply (load_div 4). intros x Hx Hy. apply store_at; lia.
  - apply (load_div 4). intros x Hx Hy. rewrite store_at by lia.
    replace (x - a) with (4 + (x - (a + 4))) by lia. rewrite N.pow_add_r. change (256 ^ 4) with W.
    rewrite <- N.div_div by (try (apply N.pow_nonzero); unfold W; lia). reflexivity.
Qed.

(** ** Numbers *)
Lemma add32_small a b : a + b < W -> add32 a b = a + b.
Proof. intros H. apply N.mod_small. exact H. Qed.
Lemma sub32_small a b : b <= a -> a < W -> sub32 a b = a - b.
Proof. intros H K. unfold sub32. replace (W + a - b) with (a - b + 1 * W) by lia. rewrite N.mod_add by (unfold W; lia). apply N.mod_small. lia. Qed.
Lemma mul32_small a b : a * b < W -> mul32 a b = a * b.
Proof. intros H. apply N.mod_small. exact H. Qed.
Lemma add32_minus a b : W - b <= a -> a < W -> b < W -> 0 < b -> add32 a b = a - (W - b).
Proof. intros H K L P. unfold add32. replace (a + b) with (a - (W - b) + 1 * W) by lia. rewrite N.mod_add by (unfold W; lia). apply N.mod_small. lia. Qed.
Lemma add32_lt a b : add32 a b < W. Proof. apply N.mod_lt. unfold W; lia. Qed.
Lemma sub32_lt a b : sub32 a b < W. Proof. apply N.mod_lt. unfold W; lia. Qed.
Lemma ishl2_small a : 4 * a < W -> ishl a 2 = 4 * a.
Proof. intros H. unfold ishl. change (2 mod 32) with 2. rewrite N.shiftl_mul_pow2. change (2 ^ 2) with 4. rewrite N.mul_comm. apply N.mod_small. exact H. Qed.
