(** * Running WebAssembly code step by step

    [Webasm.exec] relates code to the outcome of a run that ends.  Here the same rules are an interpreter with a
    bound on the depth of the run, which also says when no rule applies ([Stuck]); [run_exec] shows that the runs that
    end are the same. *)
From Coq Require Import ZArith.
From Verif Require Import PrimFacts Webasm WebasmLogic.

Inductive result := Out (o : outcome) | Stuck | More.

Fixpoint run (n : nat) (M : env) (is : list instr) (s : st) : result :=
  match n with O => More | S n =>
  match is with
  | [] => Out (Done s)
  | i :: is' =>
      match i with
      | IUnreachable => Out Trap
      | IBlock b =>
          match run n M b (restack s []) with
          | Out (Done s1) | Out (Branch 0 s1) => run n M is' (restack s1 (stack s))
          | Out (Branch (S l) s1) => Out (Branch l s1)
          | r => r
          end
      | ILoop b =>
          match run n M b (restack s []) with
          | Out (Done s1) => run n M is' (restack s1 (stack s))
          | Out (Branch 0 s1) => run n M is (restack s1 (stack s))
          | Out (Branch (S l) s1) => Out (Branch l s1)
          | r => r
          end
      | IBr l => Out (Branch l s)
      | IBrIf l =>
          match stack s with
          | c :: k => if c =? 0 then run n M is' (restack s k) else Out (Branch l (restack s k))
          | [] => Stuck
          end
      | IBrTable ls d =>
          match stack s with
          | c :: k => Out (Branch (nth (N.to_nat c) ls d) (restack s k))
          | [] => Stuck
          end
      | IReturn => Out (Returned s)
      | ICall f =>
          match nth_error (e_funcs M) f with
          | None => Stuck
          | Some fn =>
              match pop_args (fn_params fn) (stack s) with
              | None => Stuck
              | Some (args, k) =>
                  match run n M (fn_body fn) (enter fn args (globals s) (mem s)) with
                  | Out (Done s1) | Out (Branch 0 s1) | Out (Returned s1) =>
                      run n M is' (St (locals s) (globals s1) (mem s1) (firstn (fn_results fn) (stack s1) ++ k))
                  | Out (Branch (S _) _) => Stuck
                  | r => r
                  end
              end
          end
      | _ =>
          match pure i s with
          | Some s' => run n M is' s'
          | None =>
              match access i s with
              | Some (a, k, s') => if a + k <=? e_limit M then run n M is' s' else Out Trap
              | None => Stuck
              end
          end
      end
  end end.

Lemma run_exec M n : forall is s o, run n M is s = Out o -> exec M is s o.
Proof.
  induction n as [|n IH]; intros is s o H; [discriminate|]. cbn [run] in H. destruct is as [|i is]; [injection H as <-; constructor|].
  assert (P : forall s' , pure i s = Some s' -> run n M is s' = Out o -> exec M (i :: is) s o) by (intros s' A B; eapply E_pure; [exact A|apply IH; exact B]).
  assert (Q : match pure i s with
              | Some s' => run n M is s'
              | None => match access i s with
                        | Some (a, k, s') => if a + k <=? e_limit M then run n M is s' else Out Trap
                        | None => Stuck end end = Out o -> exec M (i :: is) s o).
  { destruct (pure i s) as [s'|]; [intros X; exact (P s' eq_refl X)|]. destruct (access i s) as [((a, k), s')|] eqn:E; [|discriminate].
    destruct (N.leb_spec (a + k) (e_limit M)) as [L|L]; intros X.
    - eapply E_access; [exact E|exact L|apply IH; exact X].
    - injection X as <-. eapply E_fault; [exact E|exact L]. }
  destruct i as [|b|b|l|l|ls d| |f| | | | | | | | | | | | | | | ]; try exact (Q H); clear P Q.
  - injection H as <-. constructor.
  - destruct (run n M b (restack s [])) as [[s1|[|l] s1|s1|]| |] eqn:E; try discriminate.
    + eapply E_block_on; [apply IH; exact E|reflexivity|apply IH; exact H].
    + eapply E_block_on; [apply IH; exact E|reflexivity|apply IH; exact H].
    + injection H as <-. eapply E_block_out; [apply IH; exact E|reflexivity].
    + injection H as <-. eapply E_block_out; [apply IH; exact E|reflexivity].
    + injection H as <-. eapply E_block_out; [apply IH; exact E|reflexivity].
  - destruct (run n M b (restack s [])) as [[s1|[|l] s1|s1|]| |] eqn:E; try discriminate.
    + eapply E_loop_on; [apply IH; exact E|apply IH; exact H].
    + eapply E_loop_again; [apply IH; exact E|apply IH; exact H].
    + injection H as <-. eapply E_loop_out; [apply IH; exact E|reflexivity].
    + injection H as <-. eapply E_loop_out; [apply IH; exact E|reflexivity].
    + injection H as <-. eapply E_loop_out; [apply IH; exact E|reflexivity].
  - injection H as <-. constructor.
  - destruct s as [lo g m [|c k]]; [discriminate|]. cbn in H. destruct (N.eqb_spec c 0) as [->|C].
    + apply E_br_if_not. apply IH. exact H.
    + injection H as <-. apply E_br_if. exact C.
  - destruct s as [lo g m [|c k]]; [discriminate|]. injection H as <-. apply E_br_table.
  - injection H as <-. constructor.
  - destruct (nth_error (e_funcs M) f) as [fn|] eqn:F; [|discriminate]. destruct (pop_args (fn_params fn) (stack s)) as [(args, k)|] eqn:A; [|discriminate].
    destruct (run n M (fn_body fn) (enter fn args (globals s) (mem s))) as [[s1|[|l] s1|s1|]| |] eqn:E; try discriminate.
    + eapply E_call; [exact F|exact A|apply IH; exact E|reflexivity|apply IH; exact H].
    + eapply E_call; [exact F|exact A|apply IH; exact E|reflexivity|apply IH; exact H].
    + eapply E_call; [exact F|exact A|apply IH; exact E|reflexivity|apply IH; exact H].
    + injection H as <-. eapply E_call_trap; [exact F|exact A|apply IH; exact E].
Qed.

(** More depth does not change an outcome *)
Lemma run_more M n : forall is s r, run n M is s = r -> r <> More -> run (S n) M is s = r.
Proof.
  induction n as [|n IH]; intros is s r H R; [cbn in H; congruence|].
  assert (J : forall is s, run n M is s <> More -> run (S n) M is s = run n M is s) by (intros; apply IH; [reflexivity|assumption]).
  clear IH. remember (S n) as n1 eqn:En. rewrite En in H. cbn [run] in H |- *.
  destruct is as [|i is]; [exact H|].
  destruct i as [|b|b|l|l|ls d| |f| | | | | | | | | | | | | | | ];
    repeat match type of H with
    | context [match run n M ?x ?y with _ => _ end] => assert (JJ := J x y); destruct (run n M x y) as [[?|[|?] ?|?|]| |]; try (rewrite JJ by discriminate; clear JJ)
    | context [match ?x with _ => _ end] => lazymatch x with run _ _ _ _ => fail | _ => destruct x as [] eqn:? end
    end; try congruence; try (rewrite J by congruence; congruence).
Qed.
Lemma run_mono M n m is s o : (n <= m)%nat -> run n M is s = Out o -> run m M is s = Out o.
Proof. induction 1 as [|m _ IH]; intros H; [exact H|]. apply run_more; [exact (IH H)|discriminate]. Qed.

Lemma exec_run M is s o : exec M is s o -> exists n, run n M is s = Out o.
Proof.
  induction 1 as [s|i is s s' o E _ (n & IH)|i is s a k s' o E L _ (n & IH)|i is s a k s' E L|is s
    |b is s o1 s1 o _ (n1 & IH1) F _ (n2 & IH2)|b is s o1 o _ (n1 & IH1) F|b is s s1 o _ (n1 & IH1) _ (n2 & IH2)
    |b is s s1 o _ (n1 & IH1) _ (n2 & IH2)|b is s o1 o _ (n1 & IH1) F|n is s|n is l g m c k C|n is l g m k o _ (n1 & IH)|ns d is l g m c k|is s
    |f is s fn args k o1 s1 o F A _ (n1 & IH1) D _ (n2 & IH2)|f is s fn args k F A _ (n1 & IH1)].
  - exists 1%nat. reflexivity.
  - exists (S n). cbn [run]. destruct s as [l g m k]. destruct i; try discriminate E; rewrite E; exact IH.
  - exists (S n). cbn [run]. destruct s as [l g m st]. assert (P : pure i (St l g m st) = None) by (destruct i; cbn in E |- *; congruence || reflexivity).
    rewrite P, E, (proj2 (N.leb_le _ _) L). destruct i; try discriminate; exact IH.
  - exists 1%nat. cbn [run]. destruct s as [l g m st]. assert (P : pure i (St l g m st) = None) by (destruct i; cbn in E |- *; congruence || reflexivity).
    rewrite P, E. destruct (N.leb_spec (a + k) (e_limit M)) as [X|_]; [lia|]. destruct i; try discriminate; reflexivity.
  - exists 1%nat. reflexivity.
  - exists (S (n1 + n2)). cbn [run]. apply run_mono with (m := (n1 + n2)%nat) in IH1; [|lia]. apply run_mono with (m := (n1 + n2)%nat) in IH2; [|lia]. rewrite IH1.
    destruct o1 as [x|[|j] x|x|]; cbn in F; try discriminate; injection F as ->; exact IH2.
  - exists (S n1). cbn [run]. rewrite IH1. destruct o1 as [x|[|j] x|x|]; cbn in F; try discriminate; injection F as <-; reflexivity.
  - exists (S (n1 + n2)). cbn [run]. apply run_mono with (m := (n1 + n2)%nat) in IH1; [|lia]. apply run_mono with (m := (n1 + n2)%nat) in IH2; [|lia]. rewrite IH1. exact IH2.
  - exists (S (n1 + n2)). cbn [run]. apply run_mono with (m := (n1 + n2)%nat) in IH1; [|lia]. apply run_mono with (m := (n1 + n2)%nat) in IH2; [|lia]. rewrite IH1. exact IH2.
  - exists (S n1). cbn [run]. rewrite IH1. destruct o1 as [x|[|j] x|x|]; cbn in F; try discriminate; injection F as <-; reflexivity.
  - exists 1%nat. reflexivity.
  - exists 1%nat. cbn [run stack]. destruct (N.eqb_spec c 0) as [X|_]; [contradiction|reflexivity].
  - exists (S n1). cbn [run stack]. exact IH.
  - exists 1%nat. reflexivity.
  - exists 1%nat. reflexivity.
  - exists (S (n1 + n2)). cbn [run]. apply run_mono with (m := (n1 + n2)%nat) in IH1; [|lia]. apply run_mono with (m := (n1 + n2)%nat) in IH2; [|lia]. rewrite F, A, IH1.
    destruct o1 as [x|[|j] x|x|]; cbn in D; try discriminate; injection D as ->; exact IH2.
  - exists (S n1). cbn [run]. rewrite F, A, IH1. reflexivity.
Qed.
Theorem run_is_exec M is s o : exec M is s o <-> exists n, run n M is s = Out o.
Proof. split; [apply exec_run|]. intros (n & H). exact (run_exec M n is s o H). Qed.
