(** * Specification for the font generator

    Pixel matrices as pictures, and what it means that a font contains a picture.
    None of the generator's functions is used here. *)
From Coq Require Import ZArith.
From Verif Require Import Prim Str FontDefs SpecPaint.

(** ** Pictures *)

(** A matrix of h rows of w pixels each *)
Definition rect (m : list (list Z)) (w h : nat) : Prop :=
  length m = h /\ Forall (fun row => length row = w) m.

(** The pixel in row r, column c is set; false outside the matrix *)
Definition is_set (m : list (list Z)) (r c : nat) : bool :=
  (0 <? nth c (nth r m []) 0%Z)%Z.

(** No negative entries (NewBlitPattern makes only 0 and 1) *)
Definition nonneg (m : list (list Z)) : Prop := Forall (Forall (fun v => 0 <= v)%Z) m.

(** Row r, column c of the matrix has no set pixel *)
Definition row_blank (m : list (list Z)) (r : nat) : Prop := forall c, is_set m r c = false.
Definition col_blank (m : list (list Z)) (c : nat) : Prop := forall r, is_set m r c = false.

(** m' is the part of m that starts at row y, column x; m has no ink outside of it *)
Record window (m m' : list (list Z)) (w' h' x y : nat) : Prop := {
  win_rect : rect m' w' h';
  win_inside : forall r c, (r < h')%nat -> (c < w')%nat -> is_set m' r c = is_set m (y + r) (x + c);
  win_outside : forall r c, is_set m r c = true ->
    (y <= r < y + h')%nat /\ (x <= c < x + w')%nat
}.

(** Sides trimmed no further than the limits, and not less than possible *)
Record tight (top right bottom left : Z) (m : list (list Z)) (w h w' h' x y : nat) : Prop := {
  ti_fit : (x + w' <= w)%nat /\ (y + h' <= h)%nat;
  ti_left : (x <= Z.to_nat left)%nat /\ (x = Z.to_nat left \/ ~ col_blank m x);
  ti_right : (w - x - w' <= Z.to_nat right)%nat /\
    ((w - x - w')%nat = Z.to_nat right \/ ~ col_blank m (x + w' - 1));
  ti_top : (y <= Z.to_nat top)%nat /\ (y = Z.to_nat top \/ ~ row_blank m y);
  ti_bottom : (h - y - h' <= Z.to_nat bottom)%nat /\
    ((h - y - h')%nat = Z.to_nat bottom \/ ~ row_blank m (y + h' - 1))
}.

(** ** Records in fonts *)

(** The words stand in the font's DATA array at offset off *)
Definition data_at (f : font) (off : N) (words : list N) : Prop :=
  forall i, (i < length words)%nat -> font_word f (off + N.of_nat i) = nth i words 0.

(** The glyph record at off is the picture m, to be painted y rows down *)
Record shows (f : font) (off : N) (m : list (list Z)) (w h : nat) (y : N) : Prop := {
  sh_w : gl_w f off = N.of_nat w;
  sh_h : gl_h f off = N.of_nat h;
  sh_y : gl_y f off = y;
  sh_pixels : forall r c, (r < h)%nat -> (c < w)%nat ->
    glyph_pixel f off (N.of_nat c) (N.of_nat r) = is_set m r c
}.

(** ** Clusters and Unicode blocks *)

(** The cluster starts with a character of the block *)
Definition starts_in (k : N * N) (cluster : str) : bool :=
  match cluster with
  | [] => false
  | c :: _ => (fst k <=? c) && (c <=? snd k)
  end.

(** What a block's tables should hold: cluster and offset, of those stored, that
    start in the block *)
Definition in_block (k : N * N) (stored : list (str * N)) : list (str * N) :=
  filter (fun p => starts_in k (fst p)) stored.

(** Where each of some records that follow each other from offset o starts *)
Fixpoint offsets_from (o : N) (records : list (list N)) : list N :=
  match records with
  | [] => []
  | r :: t => o :: offsets_from (o + N.of_nat (length r)) t
  end.

(** No two clusters of one block have the same hash (for hash function H); in
    particular no cluster is listed twice *)
Definition no_collisions (H : str -> N) (blocks : list (N * N)) (clusters : list str) : Prop :=
  forall k, In k blocks -> NoDup (map H (filter (starts_in k) clusters)).

(** Aliases added in order to what is stored: each gets the offset of its canonical
    cluster *)
Inductive with_aliases : list (str * N) -> list (str * str) -> list (str * N) -> Prop :=
| wa_nil stored : with_aliases stored [] stored
| wa_cons stored canon alias off rest stored' :
    In (canon, off) stored ->
    with_aliases (stored ++ [(alias, off)]) rest stored' ->
    with_aliases stored ((canon, alias) :: rest) stored'.

(** The glyph record at off draws the picture: painted at its offset from the top,
    and x columns to the right, its pixels are the picture's, and nothing of the
    picture is missing *)
Record draws (f : font) (off : N) (picture : list (list Z)) (x : nat) : Prop := {
  dr_pixels : forall r c, N.of_nat r < gl_h f off -> N.of_nat c < gl_w f off ->
    glyph_pixel f off (N.of_nat c) (N.of_nat r) = is_set picture (N.to_nat (gl_y f off) + r) (x + c);
  dr_complete : forall r c, is_set picture r c = true ->
    gl_y f off <= N.of_nat r < gl_y f off + gl_h f off /\
    N.of_nat x <= N.of_nat c < N.of_nat x + gl_w f off
}.

(** The same glyph is cut out of the n by n picture as closely as the limits allow *)
Definition cut_close (top right bottom left : Z) (f : font) (off : N) (picture : list (list Z)) (n x : nat) : Prop :=
  tight top right bottom left picture n n
    (N.to_nat (gl_w f off)) (N.to_nat (gl_h f off)) x (N.to_nat (gl_y f off)).

(** ** Hexadecimal names of clusters, such as 1f3c4-200d *)

(** Digits of n, most significant first, without leading zeros, in lower case *)
Fixpoint hex_text (fuel : nat) (n : N) : list N :=
  match fuel with
  | O => []
  | S fuel' =>
      let d := n mod 16 in
      let b := if d <? 10 then 48 + d else 87 + d in
      (if n <? 16 then [] else hex_text fuel' (n / 16)) ++ [b]
  end.

(** Codepoints joined by '-' *)
Fixpoint hex_name (cluster : str) : list N :=
  match cluster with
  | [] => []
  | [c] => hex_text 8 c
  | c :: t => hex_text 8 c ++ 45 :: hex_name t
  end.
