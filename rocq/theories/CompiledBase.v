(** * Tools for the proofs about the functions of demo.wasm *)
From Coq Require Import ZArith.
From Verif Require Import PrimFacts Geom FbFacts Webasm WebasmLogic DemoCode SpecCompiled.

Definition demo_env : env := Env demo_funcs 2686976.

Ltac code := match goal with |- wp _ ?c _ _ => let h := (match c with ?f _ _ _ => f | ?f _ _ => f | ?f _ => f | ?f => f end) in unfold h end.
Ltac run := apply wp_runs; cbn [runs pure bin nth_error upd fst snd].
Ltac crun := code; run.
Ltac next := cbn [after again finish]; unfold restack; cbn [locals globals mem stack].
Ltac limit := cbn [e_limit demo_env]; lia.

Section Rules.
Context (is : list instr) (l g : list N) (m : memory) (k : list N) (Q : outcome -> Prop).
Lemma wp_load o a v : load32 m (a + o) = v -> a + o + 4 <= 2686976 ->
  wp demo_env is (St l g m (v :: k)) Q -> wp demo_env (ILoad o :: is) (St l g m (a :: k)) Q.
Proof. intros <- H K. eapply wp_access; [reflexivity|exact H|exact K]. Qed.
Lemma wp_load8u o a v : m (a + o) = v -> a + o + 1 <= 2686976 ->
  wp demo_env is (St l g m (v :: k)) Q -> wp demo_env (ILoad8U o :: is) (St l g m (a :: k)) Q.
Proof. intros <- H K. eapply wp_access; [reflexivity|exact H|exact K]. Qed.
Lemma wp_load8s o a v : load8s m (a + o) = v -> a + o + 1 <= 2686976 ->
  wp demo_env is (St l g m (v :: k)) Q -> wp demo_env (ILoad8S o :: is) (St l g m (a :: k)) Q.
Proof. intros <- H K. eapply wp_access; [reflexivity|exact H|exact K]. Qed.
Lemma wp_load64 o a v : load64 m (a + o) = v -> a + o + 8 <= 2686976 ->
  wp demo_env is (St l g m (v :: k)) Q -> wp demo_env (ILoad64 o :: is) (St l g m (a :: k)) Q.
Proof. intros <- H K. eapply wp_access; [reflexivity|exact H|exact K]. Qed.
Lemma wp_store o a v a' : a + o = a' -> a' + 4 <= 2686976 ->
  wp demo_env is (St l g (store32 m a' v) k) Q -> wp demo_env (IStore o :: is) (St l g m (v :: a :: k)) Q.
Proof. intros <- H K. eapply wp_access; [reflexivity|exact H|exact K]. Qed.
Lemma wp_store64 o a v a' : a + o = a' -> a' + 8 <= 2686976 ->
  wp demo_env is (St l g (store64 m a' v) k) Q -> wp demo_env (IStore64 o :: is) (St l g m (v :: a :: k)) Q.
Proof. intros <- H K. eapply wp_access; [reflexivity|exact H|exact K]. Qed.
End Rules.

Lemma fb_store m fb i v : fb_at m fb -> is_frbuf fb -> i < 5896 -> v < W ->
  fb_at (store32 m (FB + 4 * i) v) (upd fb (N.to_nat i) v).
Proof.
  intros H F Hi Hv j Hj. change FRAME_BUF_SIZE with 5896 in Hj. rewrite upd_nth by (rewrite (frbuf_length fb F); lia).
  destruct (Nat.eqb_spec (N.to_nat j) (N.to_nat i)) as [E|E].
  - assert (j = i) as -> by lia. apply load32_same. exact Hv.
  - rewrite load32_other by lia. apply H. exact Hj.
Qed.
Lemma fb_other m m' fb : fb_at m fb -> (forall a, FB <= a -> a < FB + 23584 -> m' a = m a) -> fb_at m' fb.
Proof.
  intros H K i Hi. rewrite <- (H i Hi). apply load_ext. intros x Hx Hy. apply K; change FRAME_BUF_SIZE with 5896 in Hi; unfold FB in *; lia.
Qed.

Lemma same_refl lo hi m : same_but lo hi m m. Proof. intros a _. reflexivity. Qed.
Lemma same_trans lo hi m1 m2 m3 : same_but lo hi m1 m2 -> same_but lo hi m2 m3 -> same_but lo hi m1 m3.
Proof. intros H K a Ha. rewrite (K a Ha). apply H. exact Ha. Qed.
Lemma same_wide lo hi lo' hi' m m' : lo' <= lo -> hi <= hi' -> same_but lo hi m m' -> same_but lo' hi' m m'.
Proof. intros A B H a Ha. apply H. lia. Qed.
Lemma same_store n lo hi m a v : lo <= a -> a + n <= hi -> same_but lo hi m (store n m a v).
Proof. intros A B x Hx. apply store_other. lia. Qed.
Lemma same_load lo hi m m' n a : same_but lo hi m m' -> a + N.of_nat n <= lo \/ hi <= a -> load n m' a = load n m a.
Proof. intros H A. apply load_ext. intros x Hx Hy. apply H. lia. Qed.
Lemma same_load32 lo hi m m' a : same_but lo hi m m' -> a + 4 <= lo \/ hi <= a -> load32 m' a = load32 m a.
Proof. intros H A. exact (same_load lo hi m m' 4 a H A). Qed.
