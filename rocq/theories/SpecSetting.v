(** * Specification: setting text

    A text is a row of clusters, each with a picture, and newlines.  Painting it puts
    the inked part of each picture beside the one before.  None of the fonts' glyph
    records, and none of the painter's functions, is used here. *)
From Coq Require Import ZArith.
From Verif Require Import Prim Str Geom FontDefs Blit SpecPaint SpecCodegen SpecIndex SpecPictures.
From Verif Require Import Fonts.

(** ** Texts *)
Inductive item :=
| Newline
| Cluster (gs : glyphset) (picture_number : nat) (cl : str).

Fixpoint spelled (items : list item) : str :=
  match items with
  | [] => []
  | Newline :: rest => 10 :: spelled rest
  | Cluster _ _ cl :: rest => cl ++ spelled rest
  end.

(** ** The part of a picture that is used *)
Definition size (gs : glyphset) : nat :=
  match gs with Emoji | Hanzi => 32 | Bold | Regular => 30 | Small => 24 end%nat.

Definition inked_columns (n : nat) (p : list (list Z)) : list nat :=
  filter (fun c => existsb (fun r => is_set p r c) (seq 0 n)) (seq 0 n).
Definition inked_rows (n : nat) (p : list (list Z)) : list nat :=
  filter (fun r => existsb (fun c => is_set p r c) (seq 0 n)) (seq 0 n).

Record part := Part { first_column : nat; width : N; first_row : N }.

(** Hanzi are used whole.  Of the others the columns from the first to the last that
    has ink; blanks are 4 pixels wide and 2 high, in the middle. *)
Definition part_used (gs : glyphset) (i : nat) : part :=
  match gs with
  | Hanzi => Part 0 32 0
  | _ =>
      let n := size gs in
      match inked_columns n (picture gs i), inked_rows n (picture gs i) with
      | l :: more, top :: _ => Part l (N.of_nat (S (last more l) - l)) (N.of_nat top)
      | _, _ => Part 0 4 (N.of_nat (n / 2 - 1))
      end
  end.

(** ** Setting *)

(** Back to the margin, one pixel below the line; lines are at least as high as the
    pictures of the Small font *)
Definition new_line (clip : cliprect) (c : cursor) : cursor :=
  Cursor (Pt (px (cmin clip)) (cy c + N.max 24 (line_height c) + 1)) 0.

(** Not left of the margin, and on a new line when the picture and its padding would
    reach the right edge *)
Definition make_room (clip : cliprect) (c : cursor) (w : N) : cursor :=
  let c := Cursor (Pt (N.max (cx c) (px (cmin clip))) (cy c)) (line_height c) in
  if px (cmax clip) <=? cx c + w + 3 then new_line clip c else c.

(** Where the first inked column and the top of a picture are *)
Record spot := Spot { s_set : glyphset; s_picture : nat; s_left : N; s_top : N }.

Fixpoint typeset (clip : cliprect) (c : cursor) (items : list item) : list spot * cursor :=
  match items with
  | [] => ([], c)
  | Newline :: rest => typeset clip (new_line clip c) rest
  | Cluster gs i _ :: rest =>
      let w := width (part_used gs i) in
      let c1 := make_room clip c w in
      if py (cmax clip) <? cy c1 + first_row (part_used gs i) then ([], c1)
      else
        let '(spots, c') :=
          typeset clip (Cursor (Pt (cx c1 + w + 3) (cy c1)) (N.max (line_height c1) (N.of_nat (size gs)))) rest in
        (Spot gs i (cx c1 + 1) (cy c1) :: spots, c')
  end.

(** ** Ink *)
Definition spot_ink (clip : cliprect) (s : spot) (x y : N) : bool :=
  (s_left s <=? x) && (s_top s <=? y) && (py (cmin clip) <=? y) && (y <? py (cmax clip))
  && is_set (picture (s_set s) (s_picture s)) (N.to_nat (y - s_top s))
       (first_column (part_used (s_set s) (s_picture s)) + N.to_nat (x - s_left s)).

(** Parity of the number of pictures with ink at (x, y) *)
Definition spots_ink (clip : cliprect) (spots : list spot) (x y : N) : bool :=
  fold_right (fun s b => xorb (spot_ink clip s x y) b) false spots.

(** ** Texts that are read as their clusters *)
Definition known (gs : glyphset) (s : str) (bytes : N) : Prop :=
  exists off, get_blit_pattern_offset (blitstr_fonts gs) s = Ret (Some (off, bytes)).
Definition unknown_to (gs : glyphset) (s : str) : Prop :=
  get_blit_pattern_offset (blitstr_fonts gs) s = Ret None.

(** At the start of s the font gs finds cl, and the fonts asked before it nothing *)
Definition found_first (st : glyphstyle) (gs : glyphset) (cl s : str) : Prop :=
  known gs s (str_len cl) /\
  match gs with
  | Emoji => True
  | Hanzi => unknown_to Emoji s /\ unknown_to (latin_set st) s
  | Bold | Regular | Small => gs = latin_set st /\ unknown_to Emoji s
  end.

Inductive reads (st : glyphstyle) : list item -> Prop :=
| rd_end : reads st []
| rd_newline rest : reads st rest -> reads st (Newline :: rest)
| rd_cluster gs i cl rest : pictured gs i cl -> found_first st gs cl (cl ++ spelled rest) ->
    reads st rest -> reads st (Cluster gs i cl :: rest).

(** Newlines, letters with and without accents, hanzi; U+A9 and U+AE are emoji *)
Inductive plain_item (st : glyphstyle) : item -> Prop :=
| pl_newline : plain_item st Newline
| pl_latin i cl : pictured (latin_set st) i cl -> cl <> [0xA9] -> cl <> [0xAE] ->
    plain_item st (Cluster (latin_set st) i cl)
| pl_hanzi i cl : pictured Hanzi i cl -> plain_item st (Cluster Hanzi i cl)
| pl_emoji i cl : pictured Emoji i cl -> cl = [0xA9] \/ cl = [0xAE] -> plain_item st (Cluster Emoji i cl).

(** Three characters of the Latin and hanzi fonts, and the keycap emoji whose hash they
    have *)
Definition lookalikes : list (str * N) :=
  [([0x39; 0x6E0E; 0x7985], 0x23); ([0x53; 0x6D12; 0x73], 0x23); ([0x61; 0x20; 0x778D], 0x23);
   ([0x65; 0x62CA; 0x6BD9], 0x23); ([0x66; 0x7A74; 0x7965], 0x23); ([0x28; 0x7A3C; 0x56AF], 0x2A);
   ([0x40; 0x7454; 0x9CE1], 0x2A); ([0x37; 0x59F6; 0x82A4], 0x30); ([0x38; 0x8F75; 0x637D], 0x30);
   ([0x55; 0x654C; 0x6F5E], 0x30); ([0x60; 0x9A8D; 0x6020], 0x30); ([0x67; 0x74A8; 0x80F4], 0x30);
   ([0x32; 0x524A; 0x9ACE], 0x31); ([0x38; 0x5E9F; 0x5174], 0x31); ([0x5E; 0x79A4; 0x79F0], 0x31);
   ([0x68; 0x5D4A; 0x6797], 0x31); ([0x42; 0x7C30; 0x9F2F], 0x32); ([0x5D; 0x4FD0; 0x82A4], 0x32);
   ([0x4D; 0x6C3E; 0x7167], 0x33); ([0x65; 0x9AA4; 0x80DE], 0x33); ([0x6D; 0x5982; 0x68CD], 0x33);
   ([0x2B; 0x4FD7; 0x4F69], 0x34); ([0x50; 0x8DC3; 0x6E2D], 0x34); ([0x5F; 0xFF01; 0x518D], 0x34);
   ([0x72; 0x77B5; 0xFF36], 0x34); ([0x74; 0x6388; 0x5976], 0x34); ([0x2C; 0xFF27; 0x5564], 0x35);
   ([0x30; 0x82A4; 0x7473], 0x35); ([0x2F; 0x7C16; 0x7624], 0x36); ([0x37; 0x5401; 0x7852], 0x36);
   ([0x38; 0x8BB6; 0x74B1], 0x36); ([0x59; 0x2B1ED; 0x69DB], 0x36); ([0x7E; 0x70F6; 0x5F39], 0x36);
   ([0x2B; 0x5D4E; 0x9EDD], 0x37); ([0x4D; 0x7A8E; 0x640F], 0x37); ([0x69; 0x5243; 0x677E], 0x37);
   ([0x33; 0x857B; 0x7F07], 0x38); ([0x3C; 0x7766; 0x5378], 0x38); ([0x52; 0x9997; 0x55CC], 0x38);
   ([0x66; 0x9543; 0x7B79], 0x38); ([0x71; 0x847A; 0x661F], 0x38); ([0x41; 0x8230; 0x6F74], 0x39);
   ([0x7C; 0x629F; 0x960B], 0x39)].

Definition keycap (k : N) : str := [k; 0xFE0F; 0x20E3].

Definition no_lookalike (s : str) : Prop :=
  forall before three after k, s = before ++ three ++ after -> ~ In (three, k) lookalikes.
