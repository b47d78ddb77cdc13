(** * Model of the decoding of PNG files: codegen/main.go:60-72

    png.Decode of the Go standard library, with the formats it implements: PNG, zlib
    (RFC 1950) and deflate (RFC 1951).  [Panic] is an error of png.Decode, which
    readPNGFile makes a panic (main.go:66-68).  Not modelled, and [Panic] here: images
    that are interlaced, have 16 bits per sample or a tRNS chunk.  Bytes of the image
    data after the end of the zlib stream are ignored; Go reports them if they are more
    than it has buffered. *)
From Coq Require Import ZArith.
From Verif Require Import Prim Str FontDefs Codegen CodegenText.

(** ** Deflate *)

(** The bits of bytes, least significant first *)
Definition byte_bits (b : N) : list bool :=
  [N.testbit b 0; N.testbit b 1; N.testbit b 2; N.testbit b 3;
   N.testbit b 4; N.testbit b 5; N.testbit b 6; N.testbit b 7].
Fixpoint bits_of (bytes : list N) : list bool :=
  match bytes with [] => [] | b :: t => byte_bits b ++ bits_of t end.

(** A number of n bits *)
Fixpoint take_bits (n : nat) (bits : list bool) : res (N * list bool) :=
  match n with
  | O => Ret (0, bits)
  | S n' =>
      match bits with
      | [] => Panic
      | b :: t => '(v, rest) <- take_bits n' t ;; Ret (if b then N.succ_double v else N.double v, rest)
      end
  end.

(** A Huffman code is given by the lengths of its symbols' codes (0 for none).
    [groups] lists, for each length from 1 to 15, the symbols with codes of that length. *)
Fixpoint symbols_with (len i : N) (lens : list N) : list N :=
  match lens with
  | [] => []
  | l :: t => if l =? len then i :: symbols_with len (i + 1) t else symbols_with len (i + 1) t
  end.
Definition groups (lens : list N) : list (list N) :=
  map (fun len => symbols_with len 0 lens) [1; 2; 3; 4; 5; 6; 7; 8; 9; 10; 11; 12; 13; 14; 15].

(** The codes of a length are consecutive numbers and follow those of smaller lengths.
    [e] is the distance of the bits so far from the first code of the length. *)
Fixpoint decode_symbol (gs : list (list N)) (e : nat) (bits : list bool) : res (N * list bool) :=
  match gs, bits with
  | g :: gs', b :: t =>
      let e := ((if b then 1 else 0) + (e + e))%nat in
      match nth_error g e with
      | Some s => Ret (s, t)
      | None => decode_symbol gs' (e - length g) t
      end
  | _, _ => Panic
  end.

(** Every sequence of bits has to start with a code; excepted are a code with one symbol
    of length 1, and one without symbols *)
Fixpoint kraft (lens : list N) : N :=
  match lens with
  | [] => 0
  | l :: t => (if l =? 0 then 0 else 2 ^ (15 - l)) + kraft t
  end.
Definition code_ok (lens : list N) : bool :=
  match filter (fun l => negb (l =? 0)) lens with
  | [] => true
  | [1] => true
  | used => kraft used =? 2 ^ 15
  end.
Definition code_of (lens : list N) : res (list (list N)) :=
  if code_ok lens then Ret (groups lens) else Panic.

(** RFC 1951, 3.2.5: base and number of extra bits, for symbols from 257, and for distances *)
Definition length_codes : list (N * N) :=
  [(3, 0); (4, 0); (5, 0); (6, 0); (7, 0); (8, 0); (9, 0); (10, 0); (11, 1); (13, 1); (15, 1); (17, 1);
   (19, 2); (23, 2); (27, 2); (31, 2); (35, 3); (43, 3); (51, 3); (59, 3); (67, 4); (83, 4); (99, 4); (115, 4);
   (131, 5); (163, 5); (195, 5); (227, 5); (258, 0)].
Definition distance_codes : list (N * N) :=
  [(1, 0); (2, 0); (3, 0); (4, 0); (5, 1); (7, 1); (9, 2); (13, 2); (17, 3); (25, 3); (33, 4); (49, 4); (65, 5);
   (97, 5); (129, 6); (193, 6); (257, 7); (385, 7); (513, 8); (769, 8); (1025, 9); (1537, 9); (2049, 10);
   (3073, 10); (4097, 11); (6145, 11); (8193, 12); (12289, 12); (16385, 13); (24577, 13)].
Definition with_extra (codes : list (N * N)) (s : N) (bits : list bool) : res (N * list bool) :=
  match nth_error codes (N.to_nat s) with
  | Some (base, n) => '(v, bits) <- take_bits (N.to_nat n) bits ;; Ret (base + v, bits)
  | None => Panic
  end.

(** Copy len bytes from dist bytes back.  The output has its last byte first; when len
    is larger than dist, what is copied is copied again.  [fuel] bounds the rounds. *)
Fixpoint copy_back (fuel len dist : nat) (out : list N) : list N :=
  match fuel with
  | O => out
  | S fuel' =>
      if (len <=? dist)%nat then firstn len (skipn (dist - len) out) ++ out
      else copy_back fuel' (len - dist) dist (firstn dist out ++ out)
  end.

(** RFC 1951, 3.2.3: the symbols of a block; [n] is the length of the output *)
Fixpoint inflate_symbols (fuel : nat) (lit dist : list (list N)) (bits : list bool) (n : N) (out : list N)
  : res (list bool * N * list N) :=
  match fuel with
  | O => Panic
  | S fuel' =>
      '(s, bits) <- decode_symbol lit 0 bits ;;
      if s <? 256 then inflate_symbols fuel' lit dist bits (n + 1) (s :: out)
      else if s =? 256 then Ret (bits, n, out)
      else
        '(len, bits) <- with_extra length_codes (s - 257) bits ;;
        '(s, bits) <- decode_symbol dist 0 bits ;;
        '(d, bits) <- with_extra distance_codes s bits ;;
        if n <? d then Panic
        else inflate_symbols fuel' lit dist bits (n + len)
               (copy_back (N.to_nat len) (N.to_nat len) (N.to_nat d) out)
  end.

(** RFC 1951, 3.2.6: fixed codes *)
Definition fixed_lit : list N := repeat 8 144 ++ repeat 9 112 ++ repeat 7 24 ++ repeat 8 8.
Definition fixed_dist : list N := repeat 5 32.

(** RFC 1951, 3.2.7: the lengths of codes, themselves in a code *)
Definition length_order : list nat := [16; 17; 18; 0; 8; 7; 9; 6; 10; 5; 11; 4; 12; 3; 13; 2; 14; 1; 15]%nat.
Fixpoint take_lengths (order : list nat) (n : nat) (bits : list bool) (lens : list N) : res (list N * list bool) :=
  match n, order with
  | O, _ => Ret (lens, bits)
  | S n', i :: order' => '(v, bits) <- take_bits 3 bits ;; take_lengths order' n' bits (upd lens i v)
  | S _, [] => Panic
  end.
(** [lens] has the last length first; [n] lengths are still to come *)
Fixpoint code_lengths (fuel : nat) (code : list (list N)) (n : nat) (bits : list bool) (lens : list N)
  : res (list N * list bool) :=
  match fuel with
  | O => Panic
  | S fuel' =>
      match n with
      | O => Ret (rev lens, bits)
      | S n' =>
          '(s, bits) <- decode_symbol code 0 bits ;;
          if s <? 16 then code_lengths fuel' code n' bits (s :: lens)
          else
            '(v, k, bits) <-
              (if s =? 16 then
                 match lens with
                 | [] => Panic
                 | l :: _ => '(k, bits) <- take_bits 2 bits ;; Ret (l, 3 + k, bits)
                 end
               else if s =? 17 then '(k, bits) <- take_bits 3 bits ;; Ret (0, 3 + k, bits)
               else '(k, bits) <- take_bits 7 bits ;; Ret (0, 11 + k, bits)) ;;
            let k := N.to_nat k in
            if (n <? k)%nat then Panic
            else code_lengths fuel' code (n - k) bits (repeat v k ++ lens)
      end
  end.
Definition dynamic_codes (bits : list bool) : res (list (list N) * list (list N) * list bool) :=
  '(hlit, bits) <- take_bits 5 bits ;;
  '(hdist, bits) <- take_bits 5 bits ;;
  '(hclen, bits) <- take_bits 4 bits ;;
  let nlit := (257 + N.to_nat hlit)%nat in
  let ndist := (1 + N.to_nat hdist)%nat in
  if ((286 <? nlit) || (30 <? ndist))%nat then Panic
  else
    '(clens, bits) <- take_lengths length_order (4 + N.to_nat hclen) bits (repeat 0 19) ;;
    code <- code_of clens ;;
    '(lens, bits) <- code_lengths (S (nlit + ndist)) code (nlit + ndist) bits [] ;;
    lit <- code_of (firstn nlit lens) ;;
    dist <- code_of (skipn nlit lens) ;;
    Ret (lit, dist, bits).

(** To the next byte *)
Definition align (bits : list bool) : list bool := skipn (Nat.modulo (length bits) 8) bits.

(** n bytes, in front of [out] one by one *)
Fixpoint take_bytes (n : nat) (bits : list bool) (out : list N) : res (list bool * list N) :=
  match n with
  | O => Ret (bits, out)
  | S n' => '(b, bits) <- take_bits 8 bits ;; take_bytes n' bits (b :: out)
  end.

(** RFC 1951, 3.2.3: one block *)
Definition inflate_block (kind : N) (bits : list bool) (n : N) (out : list N) : res (list bool * N * list N) :=
  match kind with
  | 0 =>
      '(len, bits) <- take_bits 16 (align bits) ;;
      '(nlen, bits) <- take_bits 16 bits ;;
      if len + nlen =? 0xFFFF then
        '(bits, out) <- take_bytes (N.to_nat len) bits out ;; Ret (bits, n + len, out)
      else Panic
  | 1 => inflate_symbols (S (length bits)) (groups fixed_lit) (groups fixed_dist) bits n out
  | 2 =>
      '(lit, dist, bits) <- dynamic_codes bits ;;
      inflate_symbols (S (length bits)) lit dist bits n out
  | _ => Panic
  end.
(** All blocks *)
Fixpoint inflate_blocks (fuel : nat) (bits : list bool) (n : N) (out : list N) : res (list bool * list N) :=
  match fuel with
  | O => Panic
  | S fuel' =>
      '(final, bits) <- take_bits 1 bits ;;
      '(kind, bits) <- take_bits 2 bits ;;
      '(bits, n, out) <- inflate_block kind bits n out ;;
      if final =? 1 then Ret (bits, rev_append out []) else inflate_blocks fuel' bits n out
  end.

(** ** zlib *)

(** RFC 1950, 9 *)
Definition adler_add (a b : N) : N := let s := a + b in if s <? 65521 then s else s - 65521.
Fixpoint adler (s1 s2 : N) (data : list N) : N :=
  match data with
  | [] => s2 * 65536 + s1
  | x :: t => let s1 := adler_add s1 x in adler s1 (adler_add s2 s1) t
  end.

Definition be32 (a b c d : N) : N := ((a * 256 + b) * 256 + c) * 256 + d.

Definition zlib_decode (data : list N) : res (list N) :=
  match data with
  | cmf :: flg :: t =>
      if negb (cmf mod 16 =? 8) || (7 <? cmf / 16) || negb ((cmf * 256 + flg) mod 31 =? 0)
         || N.testbit flg 5
      then Panic
      else
        let bits := bits_of t in
        '(bits, out) <- inflate_blocks (S (length bits)) bits 0 [] ;;
        '(_, sum) <- take_bytes 4 (align bits) [] ;;
        match sum with
        | [d; c; b; a] => if be32 a b c d =? adler 1 0 out then Ret out else Panic
        | _ => Panic
        end
  | _ => Panic
  end.

(** ** Chunks *)

(** PNG, annex D *)
Definition crc_bit (c : N) : N := if N.odd c then N.lxor (N.div2 c) 0xEDB88320 else N.div2 c.
Definition crc_byte (c b : N) : N :=
  let c := N.lxor c b in
  crc_bit (crc_bit (crc_bit (crc_bit (crc_bit (crc_bit (crc_bit (crc_bit c))))))).
Definition crc32 (data : list N) : N := N.lxor (fold_left crc_byte data 0xFFFFFFFF) 0xFFFFFFFF.

Record chunk := Chunk { ch_type : list N; ch_data : list N }.
Definition IHDR : list N := [73; 72; 68; 82].
Definition PLTE : list N := [80; 76; 84; 69].
Definition TRNS : list N := [116; 82; 78; 83].
Definition IDAT : list N := [73; 68; 65; 84].
Definition IEND : list N := [73; 69; 78; 68].
Definition is_type (ty : list N) (c : chunk) : bool :=
  if list_eq_dec N.eq_dec (ch_type c) ty then true else false.

(** The chunk at the start of a file *)
Definition read_chunk (s : list N) : res (chunk * list N) :=
  match s with
  | l3 :: l2 :: l1 :: l0 :: t3 :: t2 :: t1 :: t0 :: rest =>
      let len := be32 l3 l2 l1 l0 in
      if (0x7FFFFFFF <? len) || (N.of_nat (length rest) <? len) then Panic
      else
        let n := N.to_nat len in
        let c := Chunk [t3; t2; t1; t0] (firstn n rest) in
        match skipn n rest with
        | c3 :: c2 :: c1 :: c0 :: rest =>
            if be32 c3 c2 c1 c0 =? crc32 (ch_type c ++ ch_data c) then Ret (c, rest) else Panic
        | _ => Panic
        end
  | _ => Panic
  end.

(** All chunks up to IEND; what follows it is not read *)
Fixpoint read_chunks (fuel : nat) (s : list N) : res (list chunk) :=
  match fuel with
  | O => Panic
  | S fuel' =>
      '(c, rest) <- read_chunk s ;;
      if is_type IEND c then match ch_data c with [] => Ret [] | _ => Panic end
      else more <- read_chunks fuel' rest ;; Ret (c :: more)
  end.

(** ** Image *)

Record png_header := PngHeader { ph_width : N; ph_height : N; ph_depth : N; ph_colour : N }.

(** Samples per pixel *)
Definition channels (colour : N) : N :=
  match colour with 2 => 3 | 4 => 2 | 6 => 4 | _ => 1 end.
Definition depth_ok (depth colour : N) : bool :=
  match colour with
  | 0 | 3 => (depth =? 1) || (depth =? 2) || (depth =? 4) || (depth =? 8)
  | 2 | 4 | 6 => depth =? 8
  | _ => false
  end.
Definition read_header (data : list N) : res png_header :=
  match data with
  | [w3; w2; w1; w0; h3; h2; h1; h0; depth; colour; compression; filter; interlace] =>
      let w := be32 w3 w2 w1 w0 in
      let h := be32 h3 h2 h1 h0 in
      if (w =? 0) || (0x7FFFFFFF <? w) || (h =? 0) || (0x7FFFFFFF <? h) || negb (depth_ok depth colour)
         || negb (compression =? 0) || negb (filter =? 0) || negb (interlace =? 0)
      then Panic
      else Ret (PngHeader w h depth colour)
  | _ => Panic
  end.

(** A palette: red, green and blue of each entry *)
Fixpoint read_palette (data : list N) : res (list (N * N * N)) :=
  match data with
  | [] => Ret []
  | r :: g :: b :: t => more <- read_palette t ;; Ret ((r, g, b) :: more)
  | _ => Panic
  end.

(** The chunks from the first IDAT on, and the palette before it if there is one *)
Fixpoint find_data (h : png_header) (pal : option (list (N * N * N))) (cs : list chunk)
  : res (option (list (N * N * N)) * list chunk) :=
  match cs with
  | [] => Panic
  | c :: more =>
      if is_type IDAT c then Ret (pal, cs)
      else if is_type IHDR c || is_type TRNS c then Panic
      else if is_type PLTE c then
        match pal with
        | Some _ => Panic
        | None =>
            p <- read_palette (ch_data c) ;;
            if negb (N.odd (ph_colour h) || (ph_colour h =? 2) || (ph_colour h =? 6))
               || Nat.eqb (length p) 0 || (2 ^ ph_depth h <? N.of_nat (length p))
            then Panic
            else find_data h (Some p) more
        end
      else find_data h pal more
  end.

(** The data of the IDAT chunks at the start, and the chunks after them *)
Fixpoint join_data (cs : list chunk) : list N * list chunk :=
  match cs with
  | c :: more => if is_type IDAT c then let '(d, rest) := join_data more in (ch_data c ++ d, rest) else ([], cs)
  | [] => ([], [])
  end.

(** PNG, 9: filters.  [a] is the byte left of x, [b] above it, [c] left of that *)
Definition paeth (a b c : N) : N :=
  let p := (Z.of_N a + Z.of_N b - Z.of_N c)%Z in
  let pa := Z.abs (p - Z.of_N a) in
  let pb := Z.abs (p - Z.of_N b) in
  let pc := Z.abs (p - Z.of_N c) in
  if ((pa <=? pb) && (pa <=? pc))%Z then a else if (pb <=? pc)%Z then b else c.
Definition predict (f a b c : N) : N :=
  match f with
  | 0 => 0
  | 1 => a
  | 2 => b
  | 3 => N.div2 (a + b)
  | _ => paeth a b c
  end.
Definition recon (f a b c x : N) : N :=
  match f with
  | 0 => x
  | _ => let s := x + predict f a b c in if s <? 256 then s else s - 256
  end.

(** A pixel is the list of its bytes (with less than 8 bits per sample, the pixels of a
    byte together count as one) *)
Fixpoint recon_pixel (f : N) (left up upleft px : list N) : list N :=
  match px, left, up, upleft with
  | x :: px', a :: left', b :: up', c :: upleft' => recon f a b c x :: recon_pixel f left' up' upleft' px'
  | _, _, _, _ => []
  end.
Fixpoint recon_row (f : N) (left upleft : list N) (row prev : list (list N)) : list (list N) :=
  match row, prev with
  | px :: row', up :: prev' =>
      let px := recon_pixel f left up upleft px in
      px :: recon_row f px up row' prev'
  | _, _ => []
  end.

(** n pixels of b bytes *)
Fixpoint take_pixels (n b : nat) (raw : list N) : res (list (list N) * list N) :=
  match n with
  | O => Ret ([], raw)
  | S n' =>
      let px := firstn b raw in
      if Nat.eqb (length px) b
      then '(row, raw) <- take_pixels n' b (skipn b raw) ;; Ret (px :: row, raw)
      else Panic
  end.

(** The rows of the image; there must be no other data *)
Fixpoint read_rows (h n b : nat) (prev : list (list N)) (raw : list N) : res (list (list (list N))) :=
  match h with
  | O => match raw with [] => Ret [] | _ => Panic end
  | S h' =>
      match raw with
      | [] => Panic
      | f :: raw =>
          if 4 <? f then Panic
          else
            '(row, raw) <- take_pixels n b raw ;;
            let zero := repeat 0 b in
            let row := recon_row f zero zero row prev in
            more <- read_rows h' n b row raw ;; Ret (row :: more)
      end
  end.

Record png := Png { p_header : png_header; p_palette : list (N * N * N); p_rows : list (list (list N)) }.

(** Bytes per pixel, and pixels (in the sense of [recon_pixel]) per row *)
Definition pixel_bytes (h : png_header) : nat :=
  N.to_nat (N.max 1 (channels (ph_colour h) * ph_depth h / 8)).
Definition row_pixels (h : png_header) : nat :=
  N.to_nat (if ph_depth h =? 8 then ph_width h else (ph_width h * ph_depth h + 7) / 8).

Definition signature : list N := [137; 80; 78; 71; 13; 10; 26; 10].

(** main.go:65: png.Decode *)
Definition png_decode (file : list N) : res png :=
  match strip_prefix signature file with
  | None => Panic
  | Some rest =>
      cs <- read_chunks (S (length rest)) rest ;;
      match cs with
      | [] => Panic
      | c :: cs =>
          if negb (is_type IHDR c) then Panic
          else
            h <- read_header (ch_data c) ;;
            '(pal, cs) <- find_data h None cs ;;
            let '(data, after) := join_data cs in
            if existsb (fun c => is_type IHDR c || is_type PLTE c || is_type TRNS c) after then Panic
            else
              match (if ph_colour h =? 3 then pal else Some []) with
              | None => Panic
              | Some pal =>
                  raw <- zlib_decode data ;;
                  let n := row_pixels h in
                  let b := pixel_bytes h in
                  rows <- read_rows (N.to_nat (ph_height h)) n b (repeat (repeat 0 b) n) raw ;;
                  Ret (Png h pal rows)
              end
      end
  end.

(** The samples of a pixel *)
Definition sample (h : png_header) (row : list (list N)) (x : nat) : list N :=
  if ph_depth h =? 8 then nth x row []
  else
    let bit := N.of_nat x * ph_depth h in
    match nth (N.to_nat (bit / 8)) row [] with
    | byte :: _ => [N.shiftr byte (8 - ph_depth h - bit mod 8) mod 2 ^ ph_depth h]
    | [] => []
    end.

(** Red, green, blue and alpha, 8 bits each; an index outside the palette is black *)
Definition colour_of (p : png) (s : list N) : N * N * N * N :=
  let h := p_header p in
  match ph_colour h, s with
  | 3, [i] => let '(r, g, b) := nth (N.to_nat i) (p_palette p) (0, 0, 0) in (r, g, b, 255)
  | 0, [v] => let v := v * (255 / (2 ^ ph_depth h - 1)) in (v, v, v, 255)
  | 4, [v; a] => (v, v, v, a)
  | 2, [r; g; b] => (r, g, b, 255)
  | 6, [r; g; b; a] => (r, g, b, a)
  | _, _ => (0, 0, 0, 0)
  end.
Definition png_colour (p : png) (x y : nat) : N * N * N * N :=
  colour_of p (sample (p_header p) (nth y (p_rows p) []) x).

(** img.At(x, y).RGBA(): 16 bits, multiplied with alpha *)
Definition red_of (c : N * N * N * N) : N := let '(r, _, _, a) := c in r * 257 * a / 255.

(** The image as blitpattern.go uses it; outside of an image there is its first palette
    entry if it has a palette, and nothing otherwise *)
Definition png_image (p : png) : image :=
  let h := p_header p in
  Image (Z.of_N (ph_height h))
    (fun x y => if ((0 <=? x) && (x <? Z.of_N (ph_width h)) && (0 <=? y) && (y <? Z.of_N (ph_height h)))%Z%bool
                then red_of (png_colour p (Z.to_nat x) (Z.to_nat y))
                else if ph_colour h =? 3 then red_of (colour_of p [0]) else 0).
