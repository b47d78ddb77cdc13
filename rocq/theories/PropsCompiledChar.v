(** * C72: the compiled xor_char *)
From Coq Require Import ZArith.
From Verif Require Import PrimFacts Str M3Hash FontDefs Geom FbFacts Fonts Blit Webasm WebasmLogic DemoCode SpecCompiled SpecCompiledPaint CompiledBase CompiledFile.
From Verif Require Import BasicProofs CompiledTables CompiledXor.

(** C72: xor_char, compiled, draws the glyph of the source in the frame buffer in memory, moves the cursor in
    memory as the source does and answers what the source answers; it traps exactly where the source panics.
    [sp] is the stack pointer: 352 bytes below it are the frame of xor_char, and 16 more that of find_x *)
Theorem C72_xor_char : forall m sp g ret clipp curp p gs fb clip c s,
  statics m -> bytes_ok m -> is_frbuf fb -> fb_at m fb -> clip_at m clipp clip -> cursor_at m curp c ->
  368 <= sp -> sp <= 1048576 -> sp <= clipp -> clipp + 16 <= 1048576 -> sp <= curp -> curp + 12 <= 1048576 -> sp <= ret -> ret + 8 <= 1048576 ->
  (clipp + 16 <= curp \/ curp + 12 <= clipp) -> (ret + 8 <= curp \/ curp + 12 <= ret) ->
  s <> [] -> Forall (fun c => c < 0x110000) s -> str_at m p s -> p + str_len s <= 2686976 -> (p + str_len s <= sp - 368 \/ sp <= p) ->
  match xor_char wasm32 blitstr_fonts fb clip c s gs with
  | Panic => forall r, invoke demo_env 27 [ret; clipp; curp; p; str_len s; set_code gs] (sp :: g) m r <-> r = None
  | Ret (fb', c', a) => exists m',
      (forall r, invoke demo_env 27 [ret; clipp; curp; p; str_len s; set_code gs] (sp :: g) m r <-> r = Some ([], sp :: g, m')) /\
      fb_at m' fb' /\ cursor_at m' curp c' /\ result_at m' ret a /\
      only_in [(sp - 368, sp); (ret, ret + 8); (curp, curp + 12); (FB, FB + 23584)] m m'
  end.
Proof.
  intros m sp g ret clipp curp p gs fb clip c s A1 A2 A3 A4 A5 A6 A7 A8 A9 A10 A11 A12 A13 A14 A15 A16 A17 A18 A19 A20 A21.
  destruct s as [|c0 s0]; [contradiction A17; reflexivity|].
  destruct (xor_compiled gs fb clip c c0 s0 ret clipp curp p sp g m A7 A8 A1 A2 A3 A4 A5 A6 A9 A10 A11 A12 A13 A14 A15 A16 A18 A19 A20 A21) as (r & X & Y).
  unfold xored in Y. destruct (xor_char wasm32 blitstr_fonts fb clip c (c0 :: s0) gs) as [((fb', c'), a)|].
  - destruct Y as (m' & -> & B1 & B2 & B3 & B4 & B5 & B6). exists m'. split; [|exact (conj B2 (conj B3 (conj B4 B6)))].
    apply fwp_invoke. eexists. split; [exact X|reflexivity].
  - apply fwp_invoke. eexists. split; [exact X|exact Y].
Qed.
Print Assumptions C72_xor_char.

(** In the module as loaded, with an "e" and a combining acute accent at 16 and a clip and a cursor on the stack:
    the cluster of three bytes is drawn in the regular font, the cursor moves by its width *)
Example C72_letter :
  let m := store32 (store64 (store64 (store64 (store32 demo_memory 16 0x0081CC65) 1048544 0) 1048552 (0x218 * 0x100000000 + 0x150)) 1048560 0) 1048568 0 in
  let clip := cliprect_new 0 0 336 536 in
  clip_at m 1048544 clip /\ cursor_at m 1048560 (from_top_left_of clip) /\ str_at m 16 [0x65; 0x301] /\
  exists m', invoke demo_env 27 [1048536; 1048544; 1048560; 16; 3; 2] [1048528] m (Some ([], [1048528], m')) /\
    result_at m' 1048536 (Some 3) /\ cursor_at m' 1048560 (Cursor (Pt 13 0) 30) /\ load32 m' (FB + 4 * (11 * 13)) = 0xFFFF0606.
Proof.
  intros m clip.
  assert (A : clip_at m 1048544 clip /\ cursor_at m 1048560 (from_top_left_of clip) /\ str_at m 16 [0x65; 0x301]).
  { unfold m. generalize demo_memory. intros m0. split; [repeat split; vm_compute; reflexivity|]. split; [repeat split; vm_compute; reflexivity|].
    intros i Hi. cbn in Hi. do 3 (destruct i as [|i]; [vm_compute; reflexivity|]). exfalso. lia. }
  destruct A as (A1 & A2 & A3). split; [exact A1|]. split; [exact A2|]. split; [exact A3|].
  assert (Far : forall a, 1048576 <= a -> m a = demo_memory a) by (intros a Ha; unfold m, store32, store64; rewrite !store_other by lia; reflexivity).
  assert (B1 : statics m) by (apply (statics_same demo_memory); [exact demo_statics|]; intros a Ha _; apply Far; exact Ha).
  assert (B2 : fb_at m new_fr_buf) by (apply (fb_other demo_memory); [exact demo_fb|]; intros a Ha _; apply Far; unfold FB in Ha; lia).
  assert (B3 : bytes_ok m) by (unfold m, store32, store64; do 5 apply store_ok; exact demo_bytes_ok).
  assert (X := C72_xor_char m 1048528 [] 1048536 1048544 1048560 16 Regular new_fr_buf clip (from_top_left_of clip) [0x65; 0x301]
    B1 B3 new_fr_buf_ok B2 A1 A2 ltac:(lia) ltac:(lia) ltac:(lia) ltac:(lia) ltac:(lia) ltac:(lia) ltac:(lia) ltac:(lia) ltac:(lia) ltac:(lia)
    ltac:(discriminate) ltac:(repeat constructor) A3 ltac:(cbn; lia) ltac:(cbn; lia)).
  clear A1 A2 A3 Far B1 B2 B3. clearbody m.
  assert (V : match xor_char wasm32 blitstr_fonts new_fr_buf clip (from_top_left_of clip) [0x65; 0x301] Regular with
              | Ret (fb, c, a) => (c, a, nth 143 fb 0) | Panic => (Cursor (Pt 0 0) 0, None, 0) end = (Cursor (Pt 13 0) 30, Some 3, 0xFFFF0606)) by (vm_compute; reflexivity).
  destruct (xor_char wasm32 blitstr_fonts new_fr_buf clip (from_top_left_of clip) [0x65; 0x301] Regular) as [((fb', c'), a)|]; [|discriminate V].
  injection V as -> -> V. destruct X as (m' & X & F & C & R & _). exists m'. split; [apply X; reflexivity|]. split; [exact R|]. split; [exact C|].
  etransitivity; [exact (F 143 eq_refl)|]. exact V.
Qed.
