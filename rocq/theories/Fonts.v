(** The five fonts: src/fonts.rs:5-9, and the dispatch on GlyphSet in
    src/blit.rs:125-131 and src/fonts.rs:26-32, 41-47. *)
From Verif Require Import Prim FontDefs FontSmall FontRegular FontBold FontEmoji FontHanzi.

Definition blitstr_fonts : fontset :=
  fun gs => match gs with
            | Emoji => emoji_font
            | Bold => bold_font
            | Regular => regular_font
            | Small => small_font
            | Hanzi => hanzi_font
            end.
