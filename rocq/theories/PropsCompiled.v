(** * C69, C70: the compiled module *)
From Coq Require Import ZArith.
From Verif Require Import PrimFacts Str Geom FbFacts FontDefs Fonts Blit Webasm WebasmLogic WebasmBin DemoCode SpecCompiled DemoFile.
From Verif Require Import BasicProofs CompiledBase CompiledFile CompiledClear.

(** C69: the bytes of demo.wasm are a module in the binary format.  Its functions are those of DemoCode.v;
    wasm.js finds the memory, init and frame_buf_ptr in it; nothing is imported *)
Theorem C69_file : exists w, decode demo_file = Some w /\ functions w = demo_funcs /\ memory_size w = 2686976 /\
  exported w [109; 101; 109; 111; 114; 121] = Some (2, 0%nat) /\
  exported w [105; 110; 105; 116] = Some (0, 0%nat) /\
  exported w [102; 114; 97; 109; 101; 95; 98; 117; 102; 95; 112; 116; 114] = Some (0, 3%nat) /\
  globals_at_start w = [1048576; 2659968; 2659968].
Proof.
  exists demo_module. split; [exact demo_decoded|]. split; [exact demo_functions|]. repeat split.
Qed.
Print Assumptions C69_file.

(** C69: before init, the tables of the fonts, the texts of the demos and the frame buffer of
    new_fr_buf are in its memory *)
Theorem C69_memory : forall w, decode demo_file = Some w ->
  statics (memory_at_start w) /\ fb_at (memory_at_start w) new_fr_buf /\ bytes_ok (memory_at_start w).
Proof.
  intros w. rewrite demo_decoded. intros E. injection E as <-. split; [exact demo_statics|]. split; [exact demo_fb|exact demo_bytes_ok].
Qed.
Print Assumptions C69_memory.

(** C69: frame_buf_ptr returns where the frame buffer is, and changes nothing *)
Theorem C69_frame_buf_ptr : forall g m r, invoke demo_env 3 [] g m r <-> r = Some ([FB], g, m).
Proof.
  intros g m. apply fwp_invoke. eapply fwp_intro; [reflexivity|reflexivity|]. crun. apply wp_nil. reflexivity.
Qed.
Print Assumptions C69_frame_buf_ptr.

(** C70: clear_region, compiled, does to the frame buffer in memory what the model does to the frame
    buffer, changes nothing else, returns, and does not trap *)
Theorem C70_clear : forall m p clip fb g,
  is_frbuf fb -> fb_at m fb -> bytes_ok m -> clip_at m p clip -> p + 16 <= 2686976 ->
  exists m' fb', (forall r, invoke demo_env 1 [p] g m r <-> r = Some ([], g, m')) /\
    clear_region wasm32 fb clip = Ret fb' /\ fb_at m' fb' /\ bytes_ok m' /\ same_but FB (FB + 23584) m m'.
Proof.
  intros m p clip fb g Hfb Hat Hok Hc Hp. destruct (clear_compiled m p clip fb g Hfb Hat Hok Hc Hp) as (r & X & m' & fb' & -> & E & F & A & O & S).
  exists m', fb'. split; [|repeat split; assumption]. apply fwp_invoke. exists (Some ([], g, m')). split; [exact X|reflexivity].
Qed.
Print Assumptions C70_clear.

(** A clip on the stack of a module that has just been loaded: the rightmost 28 and then 8 pixels of the
    first line, whose words were 0xffff0000 *)
Example C70_line : let m := store64 (store64 demo_memory 16 4) 24 4294967336 in
  clip_at m 16 (cliprect_new 4 0 40 1) /\ exists m', invoke demo_env 1 [16] [1048576] m (Some ([], [1048576], m')) /\
  load32 m' FB = 0xfffffff0 /\ load32 m' (FB + 4) = 0xffff00ff /\ load32 m' (FB + 8) = 0xffff0000.
Proof.
  intros m.
  assert (C : clip_at m 16 (cliprect_new 4 0 40 1)) by (unfold m; generalize demo_memory; intros m0; repeat split; vm_compute; reflexivity). split; [exact C|].
  assert (A : fb_at m new_fr_buf).
  { apply (fb_other demo_memory); [exact demo_fb|]. intros a Ha _. unfold m, store64. rewrite !store_other by (unfold FB in Ha; lia). reflexivity. }
  destruct (C70_clear m 16 _ new_fr_buf [1048576] new_fr_buf_ok A
    ltac:(unfold m, store64; do 2 apply store_ok; exact demo_bytes_ok) C ltac:(lia)) as (m' & fb' & X & E & A' & _).
  exists m'. split; [apply X; reflexivity|].
  assert (V : match clear_region wasm32 new_fr_buf (cliprect_new 4 0 40 1) with
              | Ret fb => firstn 3 fb | Panic => [] end = [0xfffffff0; 0xffff00ff; 0xffff0000]) by (vm_compute; reflexivity).
  rewrite E in V. destruct fb' as [|w0 [|w1 [|w2 t]]]; try discriminate V. cbn [firstn] in V. injection V as -> -> ->.
  split; [exact (A' 0 eq_refl)|]. split; [exact (A' 1 eq_refl)|exact (A' 2 eq_refl)].
Qed.
