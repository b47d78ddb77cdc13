(** * The zlib (RFC 1950) and PNG formats, as relations between bytes and images *)
From Coq Require Import ZArith.
From Verif Require Import Prim SpecDeflate Png.

Definition is_byte (b : N) : Prop := b < 256.

(** Four bytes, the most significant one first *)
Definition be4 (v : N) : list N := [v / 2 ^ 24; v / 2 ^ 16 mod 256; v / 2 ^ 8 mod 256; v mod 256].

(** ** zlib *)

(** RFC 1950, 8: one more than the sum of the bytes; the sum of these sums over all
    prefixes.  Here with every byte's share of that written out *)
Fixpoint sum1 (data : list N) : N := match data with [] => 0 | x :: t => x + sum1 t end.
Fixpoint sum2 (data : list N) : N :=
  match data with [] => 0 | x :: t => 1 + N.of_nat (length data) * x + sum2 t end.
Definition checksum (data : list N) : N := sum2 data mod 65521 * 65536 + (1 + sum1 data) mod 65521.

(** Deflated data at the start of [bits], and its checksum from the next byte on; bytes that
    follow do not matter *)
Definition zlib_stream (stream data : list N) : Prop :=
  exists cmf flg body rest pad junk,
    stream = cmf :: flg :: body /\
    cmf mod 16 = 8 /\ cmf / 16 <= 7 /\ (cmf * 256 + flg) mod 31 = 0 /\ N.testbit flg 5 = false /\
    deflated [] (bytes_bits body) data rest /\
    (length pad < 8)%nat /\ rest = pad ++ bytes_bits (be4 (checksum data) ++ junk).

(** ** Chunks, PNG 5.3 *)
Definition chunk_bytes (c : chunk) : list N :=
  be4 (N.of_nat (length (ch_data c))) ++ ch_type c ++ ch_data c ++ be4 (crc32 (ch_type c ++ ch_data c)).
Definition good_chunk (c : chunk) : Prop :=
  length (ch_type c) = 4%nat /\ N.of_nat (length (ch_data c)) <= 0x7FFFFFFF.
Definition none_of (types : list (list N)) (c : chunk) : Prop := ~ In (ch_type c) types.

(** ** Header and palette, PNG 11.2 *)
Definition header_bytes (h : png_header) : list N :=
  be4 (ph_width h) ++ be4 (ph_height h) ++ [ph_depth h; ph_colour h; 0; 0; 0].
Definition good_header (h : png_header) : Prop :=
  1 <= ph_width h <= 0x7FFFFFFF /\ 1 <= ph_height h <= 0x7FFFFFFF /\
  ((In (ph_colour h) [0; 3] /\ In (ph_depth h) [1; 2; 4; 8]) \/ (In (ph_colour h) [2; 4; 6] /\ ph_depth h = 8)).
Definition palette_bytes (p : list (N * N * N)) : list N := flat_map (fun '(r, g, b) => [r; g; b]) p.
Definition good_palette (h : png_header) (p : list (N * N * N)) : Prop :=
  In (ph_colour h) [2; 3; 6] /\ p <> [] /\ N.of_nat (length p) <= 2 ^ ph_depth h.

(** The chunks between the header and the image's data *)
Definition before_data (h : png_header) (pal : option (list (N * N * N))) (before : list chunk) : Prop :=
  match pal with
  | None => Forall (none_of [IHDR; PLTE; TRNS; IDAT; IEND]) before
  | Some p =>
      good_palette h p /\
      exists b1 b2, before = b1 ++ Chunk PLTE (palette_bytes p) :: b2 /\
                    Forall (none_of [IHDR; PLTE; TRNS; IDAT; IEND]) (b1 ++ b2)
  end.
(** The chunks after it; more data after another chunk is not read *)
Definition after_data (after : list chunk) : Prop :=
  Forall (none_of [IHDR; PLTE; TRNS; IEND]) after /\ forall c t, after = c :: t -> none_of [IDAT] c.

(** ** Filters, PNG 9

    [a] is the byte left of x, [b] above it, [c] left of that *)
Fixpoint nearest (p : Z) (best : N) (others : list N) : N :=
  match others with
  | [] => best
  | x :: t => nearest p (if (Z.abs (p - Z.of_N x) <? Z.abs (p - Z.of_N best))%Z then x else best) t
  end.
Definition prediction (f a b c : N) : N :=
  match f with
  | 0 => 0
  | 1 => a
  | 2 => b
  | 3 => (a + b) / 2
  | _ => nearest (Z.of_N a + Z.of_N b - Z.of_N c) a [b; c]
  end.
Definition filtered (f a b c x : N) : N := (x + 256 - prediction f a b c) mod 256.
Fixpoint filtered_pixel (f : N) (left up upleft px : list N) : list N :=
  match px, left, up, upleft with
  | x :: px', a :: left', b :: up', c :: upleft' => filtered f a b c x :: filtered_pixel f left' up' upleft' px'
  | _, _, _, _ => []
  end.
Fixpoint filtered_row (f : N) (left upleft : list N) (row prev : list (list N)) : list N :=
  match row, prev with
  | px :: row', up :: prev' => filtered_pixel f left up upleft px ++ filtered_row f px up row' prev'
  | _, _ => []
  end.
(** Each row with its filter, any of the five *)
Fixpoint rows_bytes (b : nat) (filters : list N) (prev : list (list N)) (rows : list (list (list N))) : list N :=
  match filters, rows with
  | f :: filters', row :: rows' =>
      f :: filtered_row f (repeat 0 b) (repeat 0 b) row prev ++ rows_bytes b filters' row rows'
  | _, _ => []
  end.

(** [h] rows of [n] pixels of [b] bytes *)
Definition pixel_shape (b : nat) (px : list N) : Prop := length px = b /\ Forall is_byte px.
Definition row_shape (n b : nat) (row : list (list N)) : Prop := length row = n /\ Forall (pixel_shape b) row.
Definition rows_shape (h n b : nat) (rows : list (list (list N))) : Prop := length rows = h /\ Forall (row_shape n b) rows.

(** ** Files *)
Definition png_file (file : list N) (p : png) : Prop :=
  exists pal before idats after junk raw filters,
    let h := p_header p in
    let n := row_pixels h in
    let b := pixel_bytes h in
    let chunks := Chunk IHDR (header_bytes h) :: before ++ map (Chunk IDAT) idats ++ after ++ [Chunk IEND []] in
    file = signature ++ flat_map chunk_bytes chunks ++ junk /\
    Forall good_chunk chunks /\
    good_header h /\ before_data h pal before /\ idats <> [] /\ after_data after /\
    zlib_stream (concat idats) raw /\
    raw = rows_bytes b filters (repeat (repeat 0 b) n) (p_rows p) /\
    length filters = N.to_nat (ph_height h) /\ Forall (fun f => f <= 4) filters /\
    rows_shape (N.to_nat (ph_height h)) n b (p_rows p) /\
    (if ph_colour h =? 3 then pal = Some (p_palette p) else p_palette p = []).
