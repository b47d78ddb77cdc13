(** * C71: compiled hashing and lookup *)
From Coq Require Import ZArith.
From Verif Require Import PrimFacts Str M3Hash FontDefs Fonts Webasm WebasmLogic DemoCode SpecCompiled CompiledBase CompiledFile.
From Verif Require Import CompiledHash CompiledFind CompiledTables.

(** C71: grapheme_cluster, compiled, reads the characters of a UTF-8 string and leaves the hash of the source
    and the number of bytes hashed at the address it is given *)
Theorem C71_hash : forall m g ret p limit s,
  Forall (fun c => c < 0x110000) s -> str_at m p s -> p + str_len s <= 2686976 -> ret + 8 <= 2686976 -> limit < W ->
  exists m', (forall r, invoke demo_env 5 [ret; p; str_len s; limit] g m r <-> r = Some ([], g, m')) /\
    (load32 m' ret, load32 m' (ret + 4)) = grapheme_cluster s 0 limit /\ same_but ret (ret + 8) m m'.
Proof.
  intros m g ret p limit s Hc Hs Hp Hr Hl. eexists. split; [exact (fwp_invoke _ _ _ _ _ _ (hash_compiled m g ret p limit s Hc Hs Hp Hr Hl))|].
  destruct (gc_lt s limit ltac:(unfold W; lia)) as (A & B). split.
  - rewrite load32_same by exact A. rewrite load32_other by lia. rewrite load32_same by (unfold W; lia). destruct (grapheme_cluster s 0 limit); reflexivity.
  - intros a Ha. unfold store32. rewrite !store_other by lia. reflexivity.
Qed.
Print Assumptions C71_hash.

(** C71: each compiled find_x finds what find_x of the source finds in the tables of its block.  [sp] is the
    stack pointer, 16 bytes below which are the frame of the function *)
Theorem C71_find : forall f gs k b, In (f, gs, k) find_functions -> nth_error (f_blocks (blitstr_fonts gs)) k = Some b ->
  forall m sp g ret p limit s,
  statics m -> 16 <= sp -> sp <= 1048576 -> sp <= ret -> ret + 12 <= 1048576 ->
  Forall (fun c => c < 0x110000) s -> str_at m p s -> p + str_len s <= 2686976 -> limit < W ->
  exists m' a, (forall r, invoke demo_env f [ret; p; str_len s; limit] (sp :: g) m r <-> r = Some ([], sp :: g, m')) /\
    find_in_block (f_seed (blitstr_fonts gs)) b s limit = Ret a /\ found_at m' ret a /\ answered sp 16 ret 12 m m'.
Proof.
  intros f gs k b I E m sp g ret p limit s Hst H1 H2 H3 H4 Hc Hs Hp Hl.
  destruct (find_compiled m sp ret p limit g s Hst H1 H2 H3 H4 Hc Hs Hp Hl f gs k b I E) as (r & X & m' & a & -> & F & A & S & _).
  exists m', a. split; [apply fwp_invoke; eexists; split; [exact X|reflexivity]|].
  replace (f_seed (blitstr_fonts gs)) with 0 by (destruct gs; reflexivity). split; [exact F|split; assumption].
Qed.
Print Assumptions C71_find.

(** C71: nth_word, compiled, returns the word of the source, and traps exactly where the source panics *)
Theorem C71_nth_word : forall m g gs off n, statics m -> forall r,
  invoke demo_env 32 [set_code gs; off; n] g m r <->
  r = match nth_word wasm32 (blitstr_fonts gs) off n with Ret v => Some ([v], g, m) | Panic => None end.
Proof. intros m g gs off n H. apply fwp_invoke. apply nth_word_compiled. exact H. Qed.
Print Assumptions C71_nth_word.

(** In the module as loaded, with "A" followed by a combining ring and "!" on the stack: the two characters of
    the cluster are found in the table of the small font, three bytes long *)
Example C71_letter : let m := store32 demo_memory 16 0x218ACC41 in
  str_at m 16 [0x41; 0x30A; 0x21] /\
  exists m' off, invoke demo_env 31 [1048544; 16; 4; 2] [1048528] m (Some ([], [1048528], m')) /\
    found_at m' 1048544 (Some (off, 3)).
Proof.
  intros m.
  assert (A : str_at m 16 [0x41; 0x30A; 0x21]).
  { unfold m. generalize demo_memory. intros m0 i Hi. cbn in Hi. do 4 (destruct i as [|i]; [vm_compute; reflexivity|]). exfalso. lia. }
  split; [exact A|].
  assert (S : statics m).
  { apply (statics_same demo_memory); [exact demo_statics|]. intros a Ha _. unfold m, store32. apply store_other. lia. }
  assert (In31 : In (31%nat, Small, 0%nat) find_functions) by (unfold find_functions; repeat (first [left; reflexivity|right])).
  destruct (C71_find 31 Small 0 _ In31 eq_refl m 1048528 [] 1048544 16 2 [0x41; 0x30A; 0x21] S ltac:(lia) ltac:(lia) ltac:(lia) ltac:(lia)
    ltac:(repeat constructor) A ltac:(cbn; lia) ltac:(reflexivity)) as (m' & a & X & F & Fa & _).
  cbn [blitstr_fonts] in F.
  match type of F with ?x = _ => let v := eval vm_compute in x in assert (V : x = v) by (vm_compute; reflexivity); rewrite V in F end.
  injection F as <-. exists m'. eexists. split; [apply X; reflexivity|exact Fa].
Qed.
