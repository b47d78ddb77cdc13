(** * Specification: the picture of each cluster

    Every font has a sheet with a picture for each cluster of its index.  Pictures of
    emoji and hanzi follow each other in rows; the Latin index says where each is.
    None of the generator's functions is used here. *)
From Coq Require Import ZArith.
From Verif Require Import Prim Str Geom FontDefs Blit SpecPaint SpecIndex SpecSheet.
From Verif Require Import SheetSmall SheetRegular SheetBold SheetEmoji SheetHanzi IndexText.

(** Row and column of the i-th picture *)
Definition picture_place (gs : glyphset) (i : nat) : nat * nat :=
  match gs with
  | Emoji => (i / 16, i mod 16)%nat
  | Hanzi => (i / 20, i mod 20)%nat
  | Bold | Regular | Small =>
      match nth_error latin_map i with
      | Some (_, row, col) => (Z.to_nat row, Z.to_nat col)
      | None => (O, O)
      end
  end.

(** Emoji pictures are 32 pixels wide and high, one right after the other; the others
    have lines 2 pixels wide between them and around the whole sheet. *)
Definition picture (gs : glyphset) (i : nat) : list (list Z) :=
  let '(row, col) := picture_place gs i in
  (match gs with
   | Emoji => cut_out emoji_rows 32 (32 * col) (32 * row)
   | Hanzi => cut_out hanzi_rows 32 (2 + 34 * col) (2 + 34 * row)
   | Bold => cut_out bold_rows 30 (2 + 32 * col) (2 + 32 * row)
   | Regular => cut_out regular_rows 30 (2 + 32 * col) (2 + 32 * row)
   | Small => cut_out small_rows 24 (2 + 26 * col) (2 + 26 * row)
   end)%nat.

(** cl has the i-th picture: it is the i-th of the index, or an alias of that *)
Definition pictured (gs : glyphset) (i : nat) (cl : str) : Prop :=
  exists canon, nth_error (font_index gs) i = Some canon /\
    (cl = canon \/ In (canon, cl) (font_aliases gs)).

(** In style st the cluster is painted with font gs: emoji and hanzi in every style,
    Latin clusters in their own, but U+A9 and U+AE only as emoji *)
Definition painted_with (st : glyphstyle) (gs : glyphset) (cl : str) : Prop :=
  match gs with
  | Emoji | Hanzi => True
  | Bold | Regular | Small => gs = latin_set st /\ cl <> [0xA9] /\ cl <> [0xAE]
  end.
