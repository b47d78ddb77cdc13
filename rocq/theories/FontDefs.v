(** * Model of src/fonts.rs and of the code shared by src/fonts/*.rs.

    The five files src/fonts/{small,regular,bold,emoji,hanzi}.rs are generated
    from one template (codegen/lib/templates.go:62-167) and differ only in
    their constants.  Here a font is a record of those constants and the
    template's code is written once, as functions of the record. *)
From Verif Require Import Prim Str M3Hash.

(** src/fonts.rs:60-66 (the variants of GlyphData, 16-22, are the same five) *)
Inductive glyphset := Emoji | Bold | Regular | Small | Hanzi.

(** A constant array of u32, stored as a list of 512-element pieces so that
    element access does not walk the whole array; it stands for [concat]. *)
Definition bigarr := list (list N).

Definition bigarr_get (a : bigarr) (i : N) : res N :=
  match nth_error a (N.to_nat (N.shiftr i 9)) with
  | Some piece => aget piece (N.land i 0x1ff)
  | None => Panic
  end.

(** One arm [lo..=hi => ...] of the match in get_blit_pattern_offset, with the
    limits tried in order, and the tables HASH_x and OFFSET_x used by find_x. *)
Record block := Block {
  b_low : N;
  b_high : N;
  b_limits : list N;
  b_hash : list N;
  b_offset : list N
}.

(** The constants of one font file: MAX_HEIGHT, M3_SEED, the match arms in
    order, and DATA. *)
Record font := Font {
  f_max_height : N;
  f_seed : N;
  f_blocks : list block;
  f_data : bigarr
}.

(** The fonts in use, by glyph set. *)
Definition fontset := glyphset -> font.

(** core::slice::binary_search (Rust core library): the loop
    [while size > 1 { half = size/2; mid = base+half;
       base = if s[mid] > key {base} else {mid}; size -= half }],
    then one comparison.  [fuel] bounds the iterations; [length] is enough.
    Which index is returned when the key occurs more than once is not specified
    by Rust; the tables have no duplicates. *)
Fixpoint bs_loop (fuel : nat) (s : list N) (key base size : N) : N :=
  match fuel with
  | O => base
  | S fuel' =>
      if size <=? 1 then base
      else
        let half := N.div2 size in
        let mid := base + half in
        let base' :=
          match nth_error s (N.to_nat mid) with
          | Some v => if key <? v then base else mid
          | None => base
          end in
        bs_loop fuel' s key base' (size - half)
  end.

Definition binary_search (s : list N) (key : N) : option N :=
  match s with
  | [] => None
  | _ =>
      let base := bs_loop (length s) s key 0 (N.of_nat (length s)) in
      match nth_error s (N.to_nat base) with
      | Some v => if v =? key then Some base else None
      | None => None
      end
  end.

(** src/fonts.rs:82-84: murmur3 *)
Definition murmur3 (key : str) (seed limit : N) : N * N :=
  grapheme_cluster key seed limit.

(** codegen/lib/templates.go:118-126, e.g. src/fonts/regular.rs:91-97: find_x *)
Definition find_in_block (seed : N) (b : block) (cluster : str) (limit : N)
  : res (option (N * N)) :=
  let '(key, bytes_hashed) := murmur3 cluster seed limit in
  match binary_search (b_hash b) key with
  | Some index => off <- aget (b_offset b) index ;; Ret (Some (off, bytes_hashed))
  | None => Ret None
  end.

(** templates.go:103-108: the if-let chain over the limits of one arm *)
Fixpoint try_limits (seed : N) (b : block) (cluster : str) (limits : list N)
  : res (option (N * N)) :=
  match limits with
  | [] => Ret None
  | l :: rest =>
      r <- find_in_block seed b cluster l ;;
      match r with
      | Some hit => Ret (Some hit)
      | None => try_limits seed b cluster rest
      end
  end.

(** templates.go:93-114, e.g. src/fonts/regular.rs:36-87:
    get_blit_pattern_offset.  [None] is Err(NoGlyphErr). *)
Definition get_blit_pattern_offset (f : font) (cluster : str)
  : res (option (N * N)) :=
  match cluster with
  | [] => Ret None
  | first_char :: _ =>
      match find (fun b => (b_low b <=? first_char) && (first_char <=? b_high b))
                 (f_blocks f) with
      | Some b => try_limits (f_seed f) b cluster (b_limits b)
      | None => Ret None
      end
  end.

(** src/fonts.rs:52-56 *)
Record glyph_header := GlyphHeader { gw : N; gh : N; gy : N }.

(** src/fonts.rs:25-37: GlyphData::header.  Constant shifts below 32. *)
Definition header (f : font) (offset : N) : res glyph_header :=
  h <- bigarr_get (f_data f) offset ;;
  Ret (GlyphHeader (N.shiftr (w32 (N.shiftl h 8)) 24)
                   (N.shiftr (w32 (N.shiftl h 16)) 24)
                   (N.land h 0xff)).

(** src/fonts.rs:40-48: GlyphData::nth_word *)
Definition nth_word (m : cfg) (f : font) (offset n : N) : res N :=
  i <- uadd m offset n ;; bigarr_get (f_data f) i.
