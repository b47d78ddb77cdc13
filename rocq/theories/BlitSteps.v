(** * Model of src/blit.rs once more, with what a panic leaves behind

    [Blit.v] gives the results of calls that return.  Here clear_region and paint_str
    change the caller's frame buffer and cursor one assignment at a time, so that both are
    known when the call panics too (a caller sees them with catch_unwind, and the web demo
    after a trap of the wasm module). *)
From Verif Require Import Prim Str Geom FontDefs Blit.

Record world := World { w_fb : frbuf; w_cur : cursor }.
Definition act (A : Type) := world -> world * res A.

Definition calc {A} (r : res A) : act A := fun w => (w, r).
Definition andthen {A B} (e : act A) (k : A -> act B) : act B := fun w =>
  match e w with (w', Ret a) => k a w' | (w', Panic) => (w', Panic) end.
Notation "x <~ e ;; k" := (andthen e (fun x => k)) (at level 61, e at next level, right associativity).
Notation "e ;;; k" := (andthen e (fun _ : unit => k)) (at level 61, right associativity).
Definition skip : act unit := calc (Ret tt).

(** fb[i] = f(fb[i]): the compound assignments to words of the frame buffer *)
Definition change_word (i : N) (f : N -> N) : act unit := fun w =>
  match nth_error (w_fb w) (N.to_nat i) with
  | Some v => (World (upd (w_fb w) (N.to_nat i) (f v)) (w_cur w), Ret tt)
  | None => (w, Panic)
  end.
Definition get_cursor : act cursor := fun w => (w, Ret (w_cur w)).
Definition put_cursor (c : cursor) : act unit := fun w => (World (w_fb w) c, Ret tt).
(** c.pt.x = x; c.pt.y = y; c.line_height = h *)
Definition set_x (x : N) : act unit := c <~ get_cursor ;; put_cursor (Cursor (Pt x (cy c)) (line_height c)).
Definition set_y (y : N) : act unit := c <~ get_cursor ;; put_cursor (Cursor (Pt (cx c) y) (line_height c)).
Definition set_height (h : N) : act unit := c <~ get_cursor ;; put_cursor (Cursor (cpt c) h).

(** for i in lo..hi *)
Fixpoint each_n (n : nat) (i : N) (body : N -> act unit) : act unit :=
  match n with
  | O => skip
  | S n' => body i ;;; each_n n' (i + 1) body
  end.
Definition each (lo hi : N) (body : N -> act unit) : act unit := each_n (N.to_nat (hi - lo)) lo body.

(** src/blit.rs:28-37 *)
Definition clear_row_steps (m : cfg) (lo hi px_lo px_hi y : N) : act unit :=
  base <~ calc (umul m y WORDS_PER_LINE) ;;
  k <~ calc (usub m 32 px_lo) ;;
  mask <~ calc (shl32 m 0xffffffff k) ;;
  i <~ calc (uadd m base lo) ;;
  change_word i (fun v => N.lor v mask) ;;;
  each (lo + 1) hi (fun w => i <~ calc (uadd m base w) ;; change_word i (fun _ => 0xffffffff)) ;;;
  if lo <? hi then
    k <~ calc (usub m 32 px_hi) ;;
    mask <~ calc (shr32 m 0xffffffff k) ;;
    i <~ calc (uadd m base hi) ;;
    change_word i (fun v => N.lor v mask)
  else skip.

(** src/blit.rs:14-38 *)
Definition clear_region_steps (m : cfg) (clip : cliprect) : act unit :=
  if (LINES <? py (cmax clip)) || (py (cmax clip) <=? py (cmin clip))
     || (WIDTH <? px (cmax clip)) || (px (cmax clip) <=? px (cmin clip))
  then skip
  else
    let lo := ushr5 (px (cmin clip)) in
    let hi := ushr5 (px (cmax clip)) in
    px_lo <~ calc (usub m 32 (uand1f (px (cmin clip)))) ;;
    let px_hi := uand1f (px (cmax clip)) in
    each (py (cmin clip)) (py (cmax clip)) (clear_row_steps m lo hi px_lo px_hi).

(** src/blit.rs:82-89 *)
Definition newline_steps (m : cfg) (F : fontset) (clip : cliprect) : act unit :=
  set_x (px (cmin clip)) ;;;
  c <~ get_cursor ;;
  (if line_height c <? f_max_height (F Small) then set_height (f_max_height (F Small)) else skip) ;;;
  c <~ get_cursor ;;
  d <~ calc (uadd m (line_height c) 1) ;;
  y <~ calc (uadd m (cy c) d) ;;
  set_y y ;;;
  set_height 0.

(** src/blit.rs:162-192 *)
Definition xor_row_steps (m : cfg) (f : font) (clip : cliprect) (offset w lo hi px_lo y0 y : N) : act unit :=
  yy <~ calc (uadd m y0 y) ;;
  if yy <? py (cmin clip) then skip
  else
    pattern <~ calc (row_pattern m f offset w y) ;;
    yy <~ calc (uadd m y0 y) ;;
    base <~ calc (umul m yy WORDS_PER_LINE) ;;
    i <~ calc (uadd m base lo) ;;
    k <~ calc (usub m 32 px_lo) ;;
    p <~ calc (shl32 m pattern k) ;;
    change_word i (fun v => N.lxor v p) ;;;
    if px_lo <? w then
      i <~ calc (uadd m base hi) ;;
      p <~ calc (shr32 m pattern px_lo) ;;
      change_word i (fun v => N.lxor v p)
    else skip.

(** src/blit.rs:114-206 *)
Definition xor_char_steps (m : cfg) (F : fontset) (clip : cliprect) (cluster : str) (gs : glyphset)
  : act (option N) :=
  if (LINES <? py (cmax clip)) || (WIDTH <? px (cmax clip))
     || (px (cmax clip) <=? px (cmin clip))
  then calc (Ret (Some 0))
  else
    r <~ calc (get_blit_pattern_offset (F gs) cluster) ;;
    match r with
    | None => calc (Ret None)
    | Some (offset, bytes_used) =>
        g <~ calc (header (F gs) offset) ;;
        if 32 <? gw g then calc (Ret (Some 0))
        else
          (* lines 137-139 *)
          c <~ get_cursor ;;
          (if cx c <? px (cmin clip) then set_x (px (cmin clip)) else skip) ;;;
          (* lines 141-146 *)
          c <~ get_cursor ;;
          x0 <~ calc (uadd m (cx c) 1) ;;
          e <~ calc (uadd m x0 (gw g)) ;;
          e <~ calc (uadd m e 2) ;;
          x0 <~ (if px (cmax clip) <=? e then
                   newline_steps m F clip ;;;
                   c <~ get_cursor ;;
                   calc (uadd m (cx c) 1)
                 else calc (Ret x0)) ;;
          (* lines 148-151 *)
          x1 <~ calc (uadd m x0 (gw g)) ;;
          let lo := ushr5 x0 in
          let hi := ushr5 x1 in
          px_lo <~ calc (usub m 32 (uand1f x0)) ;;
          (* lines 153-156 *)
          c <~ get_cursor ;;
          y0 <~ calc (uadd m (cy c) (gy g)) ;;
          if py (cmax clip) <? y0 then calc (Ret (Some 0))
          else
            (* lines 157-161 *)
            e <~ calc (uadd m y0 (gh g)) ;;
            y_max <~ calc (if e <=? py (cmax clip) then Ret (gh g) else usub m (py (cmax clip)) y0) ;;
            (* lines 162-192 *)
            each 0 y_max (xor_row_steps m (F gs) clip offset (gw g) lo hi px_lo y0) ;;;
            (* lines 193-204 *)
            width <~ calc (uadd m (gw g) 3) ;;
            c <~ get_cursor ;;
            x <~ calc (uadd m (cx c) width) ;;
            set_x x ;;;
            c <~ get_cursor ;;
            (if line_height c <? f_max_height (F gs) then set_height (f_max_height (F gs)) else skip) ;;;
            calc (Ret (Some bytes_used))
    end.

(** src/blit.rs:53-77; the result is the new [cluster] *)
Definition paint_step_steps (m : cfg) (F : fontset) (clip : cliprect) (st : glyphstyle) (cluster : str) : act str :=
  match cluster with
  | 10 :: _ => newline_steps m F clip ;;; calc (slice_from cluster 1)
  | _ =>
      r <~ xor_char_steps m F clip cluster Emoji ;;
      match r with
      | Some n => calc (slice_from cluster n)
      | None =>
          r <~ xor_char_steps m F clip cluster (latin_set st) ;;
          match r with
          | Some n => calc (slice_from cluster n)
          | None =>
              r <~ xor_char_steps m F clip cluster Hanzi ;;
              match r with
              | Some n => calc (slice_from cluster n)
              | None =>
                  r <~ xor_char_steps m F clip replacement (latin_set st) ;;
                  match r with
                  | Some _ =>
                      match nth_error (char_indices cluster) 1 with
                      | Some (i, _) => calc (slice_from cluster i)
                      | None => calc (Ret cluster)
                      end
                  | None => calc (Ret cluster)
                  end
              end
          end
      end
  end.

(** src/blit.rs:52-78 *)
Fixpoint paint_loop_steps (n : nat) (m : cfg) (F : fontset) (clip : cliprect) (st : glyphstyle) (cluster : str)
  : act unit :=
  match n with
  | O => skip
  | S n' =>
      match cluster with
      | [] => skip
      | _ => rest <~ paint_step_steps m F clip st cluster ;; paint_loop_steps n' m F clip st rest
      end
  end.

(** src/blit.rs:41-79 *)
Definition paint_str_steps (m : cfg) (F : fontset) (clip : cliprect) (st : glyphstyle) (s : str) : act unit :=
  paint_loop_steps (N.to_nat (str_len s)) m F clip st s.
