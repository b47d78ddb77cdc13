(** * Model of src/blit.rs, and of glyph_to_height_hint in src/glyphstyle.rs. *)
From Verif Require Import Prim Str Geom FontDefs.

(** src/blit.rs:28-37: body of the row loop of clear_region *)
Definition clear_row (m : cfg) (lo hi px_lo px_hi : N) (y : N) (fb : frbuf)
  : res frbuf :=
  base <- umul m y WORDS_PER_LINE ;;
  (* line 30 *)
  k <- usub m 32 px_lo ;;
  mask <- shl32 m 0xffffffff k ;;
  i <- uadd m base lo ;;
  w <- aget fb i ;;
  fb <- aset fb i (N.lor w mask) ;;
  (* lines 31-33 *)
  fb <- for_range (lo + 1) hi
          (fun w fb => i <- uadd m base w ;; aset fb i 0xffffffff) fb ;;
  (* lines 34-36 *)
  if lo <? hi then
    k <- usub m 32 px_hi ;;
    mask <- shr32 m 0xffffffff k ;;
    i <- uadd m base hi ;;
    w <- aget fb i ;;
    aset fb i (N.lor w mask)
  else Ret fb.

(** src/blit.rs:14-38: clear_region *)
Definition clear_region (m : cfg) (fb : frbuf) (clip : cliprect) : res frbuf :=
  if (LINES <? py (cmax clip)) || (py (cmax clip) <=? py (cmin clip))
     || (WIDTH <? px (cmax clip)) || (px (cmax clip) <=? px (cmin clip))
  then Ret fb
  else
    let lo := ushr5 (px (cmin clip)) in
    let hi := ushr5 (px (cmax clip)) in
    px_lo <- usub m 32 (uand1f (px (cmin clip))) ;;
    let px_hi := uand1f (px (cmax clip)) in
    for_range (py (cmin clip)) (py (cmax clip)) (clear_row m lo hi px_lo px_hi) fb.

(** src/blit.rs:82-89: newline *)
Definition newline (m : cfg) (F : fontset) (clip : cliprect) (c : cursor)
  : res cursor :=
  let x := px (cmin clip) in
  let lh := if line_height c <? f_max_height (F Small)
            then f_max_height (F Small) else line_height c in
  d <- uadd m lh 1 ;;
  y <- uadd m (cy c) d ;;
  Ret (Cursor (Pt x y) 0).

(** src/blit.rs:171-185: unpack the pixels of glyph row y *)
Definition row_pattern (m : cfg) (f : font) (offset w y : N) : res N :=
  px_offset <- umul m y w ;;
  low_word <- uadd m 1 (ushr5 px_offset) ;;
  px_in_low_word <- usub m 32 (uand1f px_offset) ;;
  pattern <- nth_word m f offset low_word ;;
  k <- usub m 32 px_in_low_word ;;
  pattern <- shl32 m pattern k ;;
  k <- usub m 32 w ;;
  pattern <- shr32 m pattern k ;;
  if px_in_low_word <? w then
    px_in_high_word <- usub m w px_in_low_word ;;
    n <- uadd m low_word 1 ;;
    pattern_h <- nth_word m f offset n ;;
    k <- usub m 32 px_in_high_word ;;
    pattern_h <- shr32 m pattern_h k ;;
    Ret (N.lor pattern pattern_h)
  else Ret pattern.

(** src/blit.rs:162-192: body of the row loop of xor_char *)
Definition xor_row (m : cfg) (f : font) (clip : cliprect)
  (offset w lo hi px_lo y0 : N) (y : N) (fb : frbuf) : res frbuf :=
  yy <- uadd m y0 y ;;
  if yy <? py (cmin clip) then Ret fb
  else
    pattern <- row_pattern m f offset w y ;;
    yy <- uadd m y0 y ;;
    base <- umul m yy WORDS_PER_LINE ;;
    i <- uadd m base lo ;;
    k <- usub m 32 px_lo ;;
    p <- shl32 m pattern k ;;
    v <- aget fb i ;;
    fb <- aset fb i (N.lxor v p) ;;
    if px_lo <? w then
      i <- uadd m base hi ;;
      p <- shr32 m pattern px_lo ;;
      v <- aget fb i ;;
      aset fb i (N.lxor v p)
    else Ret fb.

(** src/blit.rs:114-206: xor_char.  The result [Some n] is Ok(n) and [None] is
    Err(NoGlyphErr). *)
Definition xor_char (m : cfg) (F : fontset) (fb : frbuf) (clip : cliprect)
  (c : cursor) (cluster : str) (gs : glyphset)
  : res (frbuf * cursor * option N) :=
  (* lines 121-123 *)
  if (LINES <? py (cmax clip)) || (WIDTH <? px (cmax clip))
     || (px (cmax clip) <=? px (cmin clip))
  then Ret (fb, c, Some 0)
  else
    (* lines 125-131 *)
    r <- get_blit_pattern_offset (F gs) cluster ;;
    match r with
    | None => Ret (fb, c, None)
    | Some (offset, bytes_used) =>
        (* lines 132-135 *)
        g <- header (F gs) offset ;;
        if 32 <? gw g then Ret (fb, c, Some 0)
        else
          (* lines 137-139 *)
          let c := if cx c <? px (cmin clip)
                   then Cursor (Pt (px (cmin clip)) (cy c)) (line_height c)
                   else c in
          (* lines 141-146 *)
          x0 <- uadd m (cx c) 1 ;;
          e <- uadd m x0 (gw g) ;;
          e <- uadd m e 2 ;;
          '(c, x0) <-
            (if px (cmax clip) <=? e then
               c <- newline m F clip c ;;
               x0 <- uadd m (cx c) 1 ;;
               Ret (c, x0)
             else Ret (c, x0)) ;;
          (* lines 148-151 *)
          x1 <- uadd m x0 (gw g) ;;
          let lo := ushr5 x0 in
          let hi := ushr5 x1 in
          px_lo <- usub m 32 (uand1f x0) ;;
          (* lines 153-156 *)
          y0 <- uadd m (cy c) (gy g) ;;
          if py (cmax clip) <? y0 then Ret (fb, c, Some 0)
          else
            (* lines 157-161 *)
            e <- uadd m y0 (gh g) ;;
            y_max <- (if e <=? py (cmax clip) then Ret (gh g)
                      else usub m (py (cmax clip)) y0) ;;
            (* lines 162-192 *)
            fb <- for_range 0 y_max
                    (xor_row m (F gs) clip offset (gw g) lo hi px_lo y0) fb ;;
            (* lines 193-204 *)
            width <- uadd m (gw g) 3 ;;
            x <- uadd m (cx c) width ;;
            let font_line_height := f_max_height (F gs) in
            let lh := if line_height c <? font_line_height
                      then font_line_height else line_height c in
            Ret (fb, Cursor (Pt x (cy c)) lh, Some bytes_used)
    end.

(** src/blit.rs:43-47 *)
Definition latin_set (st : glyphstyle) : glyphset :=
  match st with
  | StBold => Bold
  | StRegular => Regular
  | StSmall => Small
  end.

(** src/blit.rs:68: the replacement character, U+FFFD *)
Definition replacement : str := [0xFFFD].

(** src/blit.rs:53-77: body of the loop of paint_str.  [cluster.len() < 1] is
    [cluster = []]; the caller breaks in that case.  The result is the new
    (fb, cursor, cluster). *)
Definition paint_step (m : cfg) (F : fontset) (clip : cliprect) (st : glyphstyle)
  (fb : frbuf) (c : cursor) (cluster : str) : res (frbuf * cursor * str) :=
  match cluster with
  | 10 :: _ =>
      (* lines 56-59 *)
      c <- newline m F clip c ;;
      rest <- slice_from cluster 1 ;;
      Ret (fb, c, rest)
  | _ =>
      (* lines 60-61 *)
      '(fb, c, r) <- xor_char m F fb clip c cluster Emoji ;;
      match r with
      | Some n => rest <- slice_from cluster n ;; Ret (fb, c, rest)
      | None =>
          (* lines 62-63 *)
          '(fb, c, r) <- xor_char m F fb clip c cluster (latin_set st) ;;
          match r with
          | Some n => rest <- slice_from cluster n ;; Ret (fb, c, rest)
          | None =>
              (* lines 64-65 *)
              '(fb, c, r) <- xor_char m F fb clip c cluster Hanzi ;;
              match r with
              | Some n => rest <- slice_from cluster n ;; Ret (fb, c, rest)
              | None =>
                  (* lines 67-76 *)
                  '(fb, c, r) <- xor_char m F fb clip c replacement (latin_set st) ;;
                  match r with
                  | Some _ =>
                      match nth_error (char_indices cluster) 1 with
                      | Some (i, _) =>
                          rest <- slice_from cluster i ;; Ret (fb, c, rest)
                      | None => Ret (fb, c, cluster)
                      end
                  | None => Ret (fb, c, cluster)
                  end
              end
          end
      end
  end.

(** src/blit.rs:52-78: [for _ in 0..s.len()], with the break of lines 53-55 *)
Fixpoint paint_loop (n : nat) (m : cfg) (F : fontset) (clip : cliprect)
  (st : glyphstyle) (fb : frbuf) (c : cursor) (cluster : str)
  : res (frbuf * cursor) :=
  match n with
  | O => Ret (fb, c)
  | S n' =>
      match cluster with
      | [] => Ret (fb, c)
      | _ =>
          '(fb, c, cluster) <- paint_step m F clip st fb c cluster ;;
          paint_loop n' m F clip st fb c cluster
      end
  end.

(** src/blit.rs:41-79: paint_str *)
Definition paint_str (m : cfg) (F : fontset) (fb : frbuf) (clip : cliprect)
  (c : cursor) (st : glyphstyle) (s : str) : res (frbuf * cursor) :=
  paint_loop (N.to_nat (str_len s)) m F clip st fb c s.

(** src/glyphstyle.rs:46-52: glyph_to_height_hint (Bold uses the Regular font's
    constant, as in the source) *)
Definition glyph_to_height_hint (F : fontset) (g : glyphstyle) : N :=
  match g with
  | StSmall => f_max_height (F Small)
  | StRegular => f_max_height (F Regular)
  | StBold => f_max_height (F Regular)
  end.
