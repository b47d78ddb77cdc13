(** * Where the values of the Rust program are in the memory of demo.wasm

    The layout that rustc chose for wasm32: fields in the order of declaration, little-endian words. *)
From Verif Require Import Prim Str Geom FontDefs Webasm.

(** The static frame buffer (wasm_demo/src/lib.rs:9) *)
Definition FB : N := 2636384.
Definition fb_at (m : memory) (fb : frbuf) : Prop :=
  forall i, i < FRAME_BUF_SIZE -> load32 m (FB + 4 * i) = nth (N.to_nat i) fb 0.

(** The bytes of a character *)
Definition utf8 (c : N) : list N :=
  if c <? 0x80 then [c]
  else if c <? 0x800 then [0xC0 + c / 64; 0x80 + c mod 64]
  else if c <? 0x10000 then [0xE0 + c / 4096; 0x80 + c / 64 mod 64; 0x80 + c mod 64]
  else [0xF0 + c / 262144; 0x80 + c / 4096 mod 64; 0x80 + c / 64 mod 64; 0x80 + c mod 64].

(** A ClipRect, a Cursor and a string at an address *)
Definition clip_at (m : memory) (p : N) (clip : cliprect) : Prop :=
  load32 m p = px (cmin clip) /\ load32 m (p + 4) = py (cmin clip) /\
  load32 m (p + 8) = px (cmax clip) /\ load32 m (p + 12) = py (cmax clip).
Definition cursor_at (m : memory) (p : N) (c : cursor) : Prop :=
  load32 m p = cx c /\ load32 m (p + 4) = cy c /\ load32 m (p + 8) = line_height c.
Definition bytes_at (m : memory) (p : N) (l : list N) : Prop :=
  forall i, (i < length l)%nat -> m (p + N.of_nat i) = nth i l 0.
Definition str_at (m : memory) (p : N) (s : str) : Prop := bytes_at m p (flat_map utf8 s).

(** [m'] is [m] except from [lo] up to [hi] *)
Definition same_but (lo hi : N) (m m' : memory) : Prop := forall a, a < lo \/ hi <= a -> m' a = m a.

(** usize is 32 bits wide on wasm32, and the module was built with --release (wasm_demo/Makefile) *)
Definition wasm32 : cfg := Cfg false 32.

(** Tables and texts one after another *)
Definition le32 (w : N) : list N := [w mod 256; w / 256 mod 256; w / 65536 mod 256; w / 16777216 mod 256].
Definition words_bytes (l : list N) : list N := flat_map le32 l.
Inductive piece := Words (l : list N) | Bytes (l : list N).
Definition piece_bytes (p : piece) : list N := match p with Words l => words_bytes l | Bytes l => l end.
Definition pieces_bytes (l : list piece) : list N := flat_map piece_bytes l.

(** A table of words at an address *)
Definition words_at (m : memory) (p : N) (l : list N) : Prop :=
  forall i, i < N.of_nat (length l) -> load32 m (p + 4 * i) = nth (N.to_nat i) l 0.

(** The variants of GlyphSet (src/fonts.rs:60-66), numbered in order *)
Definition set_code (gs : glyphset) : N := match gs with Emoji => 0 | Bold => 1 | Regular => 2 | Small => 3 | Hanzi => 4 end.
(** The answer of find_x (src/fonts/*.rs): an Option of two words *)
Definition found_at (m : memory) (a : N) (r : option (N * N)) : Prop :=
  match r with
  | Some (off, bytes) => load32 m a = 1 /\ load32 m (a + 4) = off /\ load32 m (a + 8) = bytes
  | None => load32 m a = 0
  end.
(** The functions find_x that are functions of the module as well: the number of the function, the font and the
    number of the block of characters.  The others have been inlined into xor_char. *)
Definition find_functions : list (nat * glyphset * nat) := [
  (4, Emoji, 0); (7, Emoji, 1); (8, Emoji, 2); (9, Emoji, 3); (10, Emoji, 4); (11, Emoji, 5); (12, Emoji, 6); (13, Emoji, 7);
  (14, Emoji, 8); (15, Emoji, 9); (16, Emoji, 10); (17, Emoji, 11); (18, Emoji, 12); (19, Emoji, 13); (20, Emoji, 15);
  (21, Emoji, 17); (22, Emoji, 18); (23, Emoji, 19); (24, Emoji, 20); (25, Emoji, 21); (26, Emoji, 23);
  (29, Bold, 0); (30, Regular, 0); (31, Small, 0)]%nat.
(** [m'] is [m] except for the frame of a function below [sp] and the [n] bytes of its answer *)
Definition answered (sp frame ret n : N) (m m' : memory) : Prop :=
  forall a, a < sp - frame \/ sp <= a -> a < ret \/ ret + n <= a -> m' a = m a.
