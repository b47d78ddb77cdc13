(** * C73: the compiled paint_str *)
From Coq Require Import ZArith.
From Verif Require Import PrimFacts Str M3Hash FontDefs Geom FbFacts Fonts Blit Webasm WebasmLogic DemoCode SpecCompiled SpecCompiledPaint CompiledBase CompiledFile.
From Verif Require Import BasicProofs CompiledTables CompiledStr.

(** C73: paint_str, compiled, leaves in memory the frame buffer and the cursor that the source leaves, for every
    string, style, clip and cursor; it traps exactly where the source panics.  [sp] is the stack pointer: 416 bytes
    below it are the frames of paint_str and of what it calls *)
Theorem C73_paint_str : forall m sp g clipp curp p fb clip c st s,
  statics m -> bytes_ok m -> is_frbuf fb -> fb_at m fb -> clip_at m clipp clip -> cursor_at m curp c ->
  416 <= sp -> sp <= 1048576 -> sp <= clipp -> clipp + 16 <= 1048576 -> sp <= curp -> curp + 12 <= 1048576 ->
  (clipp + 16 <= curp \/ curp + 12 <= clipp) ->
  Forall (fun c => c < 0x110000) s -> str_at m p s -> p + str_len s <= 2686976 ->
  (p + str_len s <= sp - 416 \/ sp <= p) -> (p + str_len s <= curp \/ curp + 12 <= p) -> (p + str_len s <= FB \/ FB + 23584 <= p) ->
  match paint_str wasm32 blitstr_fonts fb clip c st s with
  | Panic => forall r, invoke demo_env 2 [clipp; curp; style_code st; p; str_len s] (sp :: g) m r <-> r = None
  | Ret (fb', c') => exists m',
      (forall r, invoke demo_env 2 [clipp; curp; style_code st; p; str_len s] (sp :: g) m r <-> r = Some ([], sp :: g, m')) /\
      fb_at m' fb' /\ cursor_at m' curp c' /\ only_in [(sp - 416, sp); (curp, curp + 12); (FB, FB + 23584)] m m'
  end.
Proof.
  intros m sp g clipp curp p fb clip c st s A1 A2 A3 A4 A5 A6 A7 A8 A9 A10 A11 A12 A13 A14 A15 A16 A17 A18 A19.
  destruct (paint_compiled fb clip c st s clipp curp p sp g m A7 A8 A1 A2 A3 A4 A5 A6 A9 A10 A11 A12 A13 A14 A15 A16 A17 A18 A19) as (r & X & Y).
  unfold painted in Y. destruct (paint_str wasm32 blitstr_fonts fb clip c st s) as [(fb', c')|].
  - destruct Y as (m' & -> & B1 & B2 & B3 & B4 & B5). exists m'. split; [|exact (conj B2 (conj B3 B5))].
    apply fwp_invoke. eexists. split; [exact X|reflexivity].
  - apply fwp_invoke. eexists. split; [exact X|exact Y].
Qed.
Print Assumptions C73_paint_str.

(** In the module as loaded, with the string "e" and a combining acute accent, newline, U+0378 (in no font) at 16
    and a clip and a cursor on the stack: the first character is drawn as in C72, the cursor ends on the second line
    after the replacement character, which an unknown last character gets once for each iteration left *)
Example C73_lines :
  let m := store64 (store64 (store64 (store64 (store32 demo_memory 1048568 0) 16 0x0000B8CD0A81CC65) 1048544 0) 1048552 (0x218 * 0x100000000 + 0x150)) 1048560 0 in
  let clip := cliprect_new 0 0 336 536 in
  clip_at m 1048544 clip /\ cursor_at m 1048560 (from_top_left_of clip) /\ str_at m 16 [0x65; 0x301; 10; 0x378] /\
  exists m', invoke demo_env 2 [1048544; 1048560; 1; 16; 6] [1048544] m (Some ([], [1048544], m')) /\
    cursor_at m' 1048560 (Cursor (Pt 84 31) 30) /\ load32 m' (FB + 4 * (11 * 13)) = 0xFFFF0606.
Proof.
  intros m clip.
  assert (A : clip_at m 1048544 clip /\ cursor_at m 1048560 (from_top_left_of clip) /\ str_at m 16 [0x65; 0x301; 10; 0x378]).
  { unfold m. generalize demo_memory. intros m0. split; [repeat split; vm_compute; reflexivity|]. split; [repeat split; vm_compute; reflexivity|].
    intros i Hi. cbn in Hi. do 6 (destruct i as [|i]; [vm_compute; reflexivity|]). exfalso. lia. }
  destruct A as (A1 & A2 & A3). split; [exact A1|]. split; [exact A2|]. split; [exact A3|].
  assert (Far : forall a, 1048576 <= a -> m a = demo_memory a) by (intros a Ha; unfold m, store32, store64; rewrite !store_other by lia; reflexivity).
  assert (B1 : statics m) by (apply (statics_same demo_memory); [exact demo_statics|]; intros a Ha _; apply Far; exact Ha).
  assert (B2 : fb_at m new_fr_buf) by (apply (fb_other demo_memory); [exact demo_fb|]; intros a Ha _; apply Far; unfold FB in Ha; lia).
  assert (B3 : bytes_ok m) by (unfold m, store32, store64; do 5 apply store_ok; exact demo_bytes_ok).
  assert (X := C73_paint_str m 1048544 [] 1048544 1048560 16 new_fr_buf clip (from_top_left_of clip) StRegular [0x65; 0x301; 10; 0x378]
    B1 B3 new_fr_buf_ok B2 A1 A2 ltac:(lia) ltac:(lia) ltac:(lia) ltac:(lia) ltac:(lia) ltac:(lia) ltac:(lia)
    ltac:(repeat constructor) A3 ltac:(cbn; lia) ltac:(cbn; lia) ltac:(cbn; lia) ltac:(left; vm_compute; discriminate)).
  clear A1 A2 A3 Far B1 B2 B3. clearbody m.
  assert (V : match paint_str wasm32 blitstr_fonts new_fr_buf clip (from_top_left_of clip) StRegular [0x65; 0x301; 10; 0x378] with
              | Ret (fb, c) => (c, nth 143 fb 0) | Panic => (Cursor (Pt 0 0) 0, 0) end = (Cursor (Pt 84 31) 30, 0xFFFF0606)) by (vm_compute; reflexivity).
  destruct (paint_str wasm32 blitstr_fonts new_fr_buf clip (from_top_left_of clip) StRegular [0x65; 0x301; 10; 0x378]) as [(fb', c')|]; [|discriminate V].
  injection V as -> V. destruct X as (m' & X & F & C & _). exists m'. split; [apply X; reflexivity|]. split; [exact C|].
  etransitivity; [exact (F 143 eq_refl)|]. exact V.
Qed.
