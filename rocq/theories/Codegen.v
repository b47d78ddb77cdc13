(** * Model of the font generator, codegen/lib/*.go and codegen/main.go

    Go semantics used here:
    - an index out of range and an explicit panic are both [Panic];
    - uint32 arithmetic wraps, and a shift by 32 or more gives 0;
    - int (64 bits) is Z; the sizes involved stay far below 2^63;
    - a string that was decoded from a list of codepoints is the list of its
      Unicode scalar values ([str]); a source text is the list of its bytes;
    - nil and empty slices are not distinguished. *)
From Coq Require Import ZArith String.
From Verif Require Import Prim Str FontDefs.

(** ** codegen/lib/murmur3.go *)

(** murmur3.go:15-24: one iteration of the loop *)
Definition go_mix (h c : N) : N :=
  let k := w32 c in
  let k := wmul32 k 0xcc9e2d51 in
  let k := rotl32 k 15 in
  let k := wmul32 k 0x1b873593 in
  let h := N.lxor h k in
  let h := rotl32 h 13 in
  let h := wmul32 h 5 in
  wadd32 h 0xe6546b64.

(** murmur3.go:11-32: Murmur3; len(key) is the number of UTF-8 bytes *)
Definition go_murmur3 (key : str) (seed : N) : N :=
  let h := fold_left go_mix key seed in
  let h := N.lxor h (w32 (str_len key)) in
  let h := N.lxor h (N.shiftr h 16) in
  let h := wmul32 h 0x85ebca6b in
  let h := N.lxor h (N.shiftr h 13) in
  let h := wmul32 h 0xc2b2ae35 in
  N.lxor h (N.shiftr h 16).

(** ** codegen/lib/matrix.go *)

(** matrix.go:11 *)
Definition matrix := list (list Z).

(** Apply a function that may panic to each element *)
Fixpoint map_res {A B} (f : A -> res B) (l : list A) : res (list B) :=
  match l with
  | [] => Ret []
  | a :: t => b <- f a ;; bs <- map_res f t ;; Ret (b :: bs)
  end.

(** len(m[0]), or 0 for an empty matrix *)
Definition first_len (m : matrix) : nat :=
  match m with [] => O | row :: _ => List.length row end.

(** matrix.go:37-42 *)
Definition pat_w (m : matrix) : N := w32 (N.of_nat (first_len m)).
Definition pat_h (m : matrix) : N :=
  match first_len m with O => 0 | _ => w32 (N.of_nat (List.length m)) end.

(** State of the packing loop: words so far, bufWord, flushed *)
Definition packing := (list N * N * bool)%type.

(** matrix.go:48-58: body of the inner loop *)
Definition pack_pixel (m : matrix) (patW y x : N) (st : packing) : res packing :=
  let '(pattern, bufWord, _) := st in
  row <- aget m y ;;
  px <- aget row (patW - 1 - x) ;;
  let bufWord :=
    if (0 <? px)%Z then N.lor (w32 (N.shiftl bufWord 1)) 1 else w32 (N.shiftl bufWord 1) in
  if w32 (y * patW + x) mod 32 =? 31
  then Ret (pattern ++ [bufWord], 0, true)
  else Ret (pattern, bufWord, false).

(** matrix.go:46-60 *)
Definition pack_loop (m : matrix) (patW patH : N) (st : packing) : res packing :=
  for_range 0 patH (fun y => for_range 0 patW (fun x => pack_pixel m patW y x)) st.

(** matrix.go:43 *)
Definition pat_header (patW patH yOffset : N) : N :=
  N.lor (N.lor (w32 (N.shiftl patW 16)) (w32 (N.shiftl patH 8))) yOffset.

(** matrix.go:35-66: convertToPattern *)
Definition convert_to_pattern (m : matrix) (yOffset : N) : res (list N) :=
  let patW := pat_w m in
  let patH := pat_h m in
  '(pattern, bufWord, flushed) <-
    pack_loop m patW patH ([pat_header patW patH yOffset], 0, false) ;;
  if flushed then Ret pattern
  else
    let finalShift := 32 - w32 (patW * patH) mod 32 in
    Ret (pattern ++ [w32 (N.shiftl bufWord finalShift)]).

(** matrix.go:92-107: transpose *)
Definition transpose (m : matrix) : res matrix :=
  map_res (fun col => map_res (fun row => aget row (N.of_nat col)) m) (seq 0 (first_len m)).

(** matrix.go:110-116: reverseRows *)
Definition reverse_rows (m : matrix) : matrix := rev m.

(** matrix.go:124-127 *)
Definition row_sum (row : list Z) : Z := fold_left Z.add row 0%Z.

(** matrix.go:123-133: the loop of trimLeadingEmptyRows; m[0] is read before
    len(m) is checked. *)
Fixpoint trim_loop (n : nat) (m : matrix) : res matrix :=
  match n with
  | O => Ret m
  | S n' =>
      match m with
      | [] => Panic
      | row :: rest => if (row_sum row =? 0)%Z then trim_loop n' rest else Ret m
      end
  end.

(** matrix.go:119-135: trimLeadingEmptyRows *)
Definition trim_leading_empty_rows (limit : Z) (m : matrix) : res matrix :=
  match m with
  | [] => Ret []
  | _ => trim_loop (Z.to_nat limit) m
  end.

(** [4]int: top, right, bottom, left *)
Record limits := Limits { l_top : Z; l_right : Z; l_bottom : Z; l_left : Z }.

(** matrix.go:70-89: Trim, with the limits already looked up *)
Definition trim_to (l : limits) (m : matrix) : res (matrix * N) :=
  m <- transpose m ;;
  m <- trim_leading_empty_rows (l_left l) m ;;
  let m := reverse_rows m in
  m <- trim_leading_empty_rows (l_right l) m ;;
  let m := reverse_rows m in
  m <- transpose m ;;
  let preTrimH := List.length m in
  m <- trim_leading_empty_rows (l_top l) m ;;
  let yOffset := (preTrimH - List.length m)%nat in
  let m := reverse_rows m in
  m <- trim_leading_empty_rows (l_bottom l) m ;;
  let m := reverse_rows m in
  Ret (m, w32 (N.of_nat yOffset)).

(** ** codegen/lib/charspec.go *)

(** charspec.go:14-18; Hex as bytes *)
Record charspec := CharSpec { cs_hex : list N; cs_row : Z; cs_col : Z }.

(** charspec.go:21-24 *)
Record gcalias := GCAlias { canon_hex : list N; alias_hex : list N }.

(** strings.Split(s, sep) for a one-byte separator (Go standard library) *)
Fixpoint split_on (sep : N) (s : list N) : list (list N) :=
  match s with
  | [] => [[]]
  | b :: t =>
      if b =? sep then [] :: split_on sep t
      else match split_on sep t with
           | [] => [[b]]
           | first :: rest => (b :: first) :: rest
           end
  end.

(** One hexadecimal digit, either case *)
Definition hex_digit (b : N) : option N :=
  if (48 <=? b) && (b <=? 57) then Some (b - 48)
  else if (65 <=? b) && (b <=? 70) then Some (b - 55)
  else if (97 <=? b) && (b <=? 102) then Some (b - 87)
  else None.

(** strconv.ParseUint(s, 16, 32) (Go standard library): None is an error *)
Fixpoint parse_digits (acc : N) (s : list N) : option N :=
  match s with
  | [] => Some acc
  | b :: t =>
      match hex_digit b with
      | None => None
      | Some d =>
          let acc := 16 * acc + d in
          if 2 ^ 32 <=? acc then None else parse_digits acc t
      end
  end.
Definition parse_hex (s : list N) : option N :=
  match s with [] => None | _ => parse_digits 0 s end.

(** string(rune(n)): a value that is no Unicode scalar becomes U+FFFD *)
Definition rune (n : N) : N := if is_char n then n else 0xFFFD.

(** charspec.go:42-58: StringFromHexGC *)
Definition string_from_hex_gc (hexGC : list N) : res str :=
  map_res (fun hc => match parse_hex hc with Some n => Ret (rune n) | None => Panic end)
          (split_on 45 hexGC).

(** charspec.go:36-38: GraphemeCluster *)
Definition cluster_of (cs : charspec) : res str := string_from_hex_gc (cs_hex cs).

(** ** codegen/lib/fontspec.go *)

(** fontspec.go:7-20, the fields the generator computes with *)
Record fontspec := FontSpec {
  fs_name : string;
  fs_size : Z;
  fs_cols : Z;
  fs_gutter : Z;
  fs_border : Z;
  fs_glyph_trim : string;
  fs_seed : N
}.

(** fontspec.go:23-37: TrimLimits *)
Definition trim_limits (f : fontspec) (row col : Z) : limits :=
  let max_trim := Limits (fs_size f) (fs_size f) (fs_size f) (fs_size f) in
  if (String.eqb (fs_name f) "Bold" || String.eqb (fs_name f) "Regular"
      || String.eqb (fs_name f) "Small")%bool then
    if ((col =? 2)%Z && (row =? 0)%Z)%bool then
      let lr := (Z.quot (fs_size f) 2 - 2)%Z in
      let tb := (Z.quot (fs_size f) 2 - 1)%Z in
      Limits tb lr tb lr
    else max_trim
  else if String.eqb (fs_glyph_trim f) "CJK" then Limits 0 0 0 0
  else max_trim.

(** ** codegen/lib/blitpattern.go *)

(** A decoded image: img.Bounds().Max.Y and the red component at (x, y) *)
Record image := Image { img_max_y : Z; img_red : Z -> Z -> N }.

(** lo, lo+1, ..., hi-1 *)
Definition zrange (lo hi : Z) : list Z :=
  map (fun k => (lo + Z.of_nat k)%Z) (seq 0 (Z.to_nat (hi - lo))).

(** blitpattern.go:41-57: the pixels of one grid cell *)
Definition grid_cell (img : image) (f : fontspec) (row col : Z) : matrix :=
  let gridSize := (fs_size f + fs_gutter f)%Z in
  let border := fs_border f in
  map (fun y =>
    map (fun x => if img_red img x y =? 0 then 1%Z else 0%Z)
        (zrange (border + col * gridSize) ((col + 1) * gridSize)))
    (zrange (border + row * gridSize) ((row + 1) * gridSize)).

(** blitpattern.go:24-27 *)
Record blitpattern := BlitPattern { bp_words : list N; bp_cs : charspec }.

(** blitpattern.go:33-62: NewBlitPattern (Debug prints nothing: main.go:28) *)
Definition new_blit_pattern (img : image) (f : fontspec) (cs : charspec) : res blitpattern :=
  let row := cs_row cs in
  let col := cs_col cs in
  if (fs_size f + fs_gutter f =? 0)%Z then Panic else
  let rows := Z.quot (img_max_y img - fs_border f) (fs_size f + fs_gutter f) in
  if ((row <? 0) || (rows <=? row) || (col <? 0) || (fs_cols f <=? col))%Z%bool then Panic
  else
    '(m, yOffset) <- trim_to (trim_limits f row col) (grid_cell img f row col) ;;
    words <- convert_to_pattern m yOffset ;;
    Ret (BlitPattern words cs).

(** main.go:48-57: patternListFromSpriteSheet, the image already decoded *)
Definition pattern_list (img : image) (f : fontspec) (csList : list charspec)
  : res (list blitpattern) :=
  map_res (new_blit_pattern img f) csList.

(** ** codegen/lib/blockindex.go *)

(** blockindex.go:16-20 *)
Record entry := Entry { e_hash : N; e_cluster : str; e_offset : N }.
Definition block_index := list entry.

(** sort.Slice by a key (Go standard library), as insertion sort.  sort.Slice is
    not stable, so its result is determined only when the keys are distinct. *)
Fixpoint insert_by {A} (key : A -> N) (a : A) (l : list A) : list A :=
  match l with
  | [] => [a]
  | b :: t => if key a <=? key b then a :: l else b :: insert_by key a t
  end.
Definition sort_by {A} (key : A -> N) (l : list A) : list A := fold_right (insert_by key) [] l.

(** blockindex.go:24-34: BlockIndex.Insert *)
Definition bi_insert (b : block_index) (cluster : str) (m3Seed dataOffset : N) : block_index :=
  sort_by e_hash (b ++ [Entry (go_murmur3 cluster m3Seed) cluster dataOffset]).

(** blockindex.go:62-76: ClusterLengthList.  The keys of the histogram, in
    descending order. *)
Definition cluster_length_list (b : block_index) : list N :=
  rev (sort_by (fun n => n)
         (nodup N.eq_dec (map (fun e => N.of_nat (List.length (e_cluster e))) b))).

(** ** codegen/lib/ublock.go *)

(** ublock.go:11-15, without the name, which only makes Rust identifiers *)
Definition ublock := (N * N)%type.
Definition ublock_eqb (a b : ublock) : bool := (fst a =? fst b) && (snd a =? snd b).

(** ublock.go:20-61 *)
Definition known_blocks : list ublock :=
  [ (0x0000, 0x007F); (0x0080, 0x00FF); (0x0100, 0x017F); (0x2000, 0x206F);
    (0x20A0, 0x20CF); (0x2100, 0x214F); (0x2190, 0x21FF); (0x2300, 0x23FF);
    (0x2460, 0x24FF); (0x25A0, 0x25FF); (0x2600, 0x26FF); (0x2700, 0x27BF);
    (0x2900, 0x297F); (0x2B00, 0x2BFF); (0x3000, 0x303F); (0x3200, 0x32FF);
    (0x3400, 0x4DBF); (0x4E00, 0x9FFF); (0xE000, 0xF8FF); (0xFFF0, 0xFFFF);
    (0xFF00, 0xFFEF); (0x1F000, 0x1F02F); (0x1F0A0, 0x1F0FF); (0x1F100, 0x1F1FF);
    (0x1F200, 0x1F2FF); (0x1F300, 0x1F5FF); (0x1F600, 0x1F64F); (0x1F680, 0x1F6FF);
    (0x1F780, 0x1F7FF); (0x1F900, 0x1F9FF); (0x1FA70, 0x1FAFF); (0x20000, 0x2A6DF);
    (0x2A700, 0x2B73F); (0x2B740, 0x2B81F); (0x2B820, 0x2CEAF); (0x2CEB0, 0x2EBEF);
    (0x2F800, 0x2FA1F); (0x30000, 0x3134F) ].

(** ublock.go:64-71: Block *)
Definition ublock_of (c : N) : res ublock :=
  match find (fun b => (fst b <=? c) && (c <=? snd b)) known_blocks with
  | Some b => Ret b
  | None => Panic
  end.

(** ** codegen/lib/glyphset.go *)

(** glyphset.go:12-16: Code is represented by the words it lists; the map by an
    association list without duplicate keys. *)
Record glyph_set := GlyphSet {
  gs_code : list N;
  gs_len : N;
  gs_index : list (ublock * block_index)
}.

(** Go map read (nil when absent) and write *)
Fixpoint map_get (ix : list (ublock * block_index)) (k : ublock) : block_index :=
  match ix with
  | [] => []
  | (k', b) :: t => if ublock_eqb k' k then b else map_get t k
  end.
Fixpoint map_set (ix : list (ublock * block_index)) (k : ublock) (v : block_index)
  : list (ublock * block_index) :=
  match ix with
  | [] => [(k, v)]
  | (k', b) :: t => if ublock_eqb k' k then (k', v) :: t else (k', b) :: map_set t k v
  end.

(** []rune(s)[0] *)
Definition first_rune (s : str) : res N := aget s 0.

(** glyphset.go:51-55: Insert *)
Definition gs_insert (ix : list (ublock * block_index)) (cluster : str) (m3Seed dataOffset : N)
  : res (list (ublock * block_index)) :=
  c <- first_rune cluster ;;
  block <- ublock_of c ;;
  Ret (map_set ix block (bi_insert (map_get ix block) cluster m3Seed dataOffset)).

(** glyphset.go:24-31: one pattern *)
Definition add_pattern (m3Seed : N) (g : glyph_set) (p : blitpattern) : res glyph_set :=
  cluster <- cluster_of (bp_cs p) ;;
  ix <- gs_insert (gs_index g) cluster m3Seed (gs_len g) ;;
  Ret (GlyphSet (gs_code g ++ bp_words p)
                (gs_len g + N.of_nat (List.length (bp_words p))) ix).

(** A loop over a list whose body may panic *)
Fixpoint fold_res {A S} (f : S -> A -> res S) (l : list A) (s : S) : res S :=
  match l with
  | [] => Ret s
  | a :: t => s' <- f s a ;; fold_res f t s'
  end.

(** glyphset.go:21-32: NewGlyphSetFrom *)
Definition new_glyph_set_from (pl : list blitpattern) (m3Seed : N) : res glyph_set :=
  fold_res (add_pattern m3Seed) pl (GlyphSet [] 0 []).

(** sort.Search (Go standard library): the loop
    [i, j := 0, n; for i < j { h := (i+j)/2; if !f(h) { i = h+1 } else { j = h } }; return i];
    [fuel] bounds the iterations. *)
Fixpoint search_loop (fuel : nat) (f : N -> bool) (i j : N) : N :=
  match fuel with
  | O => i
  | S fuel' =>
      if i <? j then
        let h := (i + j) / 2 in
        if f h then search_loop fuel' f i h else search_loop fuel' f (h + 1) j
      else i
  end.
Definition sort_search (n : N) (f : N -> bool) : N := search_loop (N.to_nat n) f 0 n.

(** glyphset.go:58-69: FindDataOffset *)
Definition find_data_offset (ix : list (ublock * block_index)) (block : ublock) (cluster : str)
  (m3Seed : N) : res N :=
  let dex := map_get ix block in
  let hash := go_murmur3 cluster m3Seed in
  let n := sort_search (N.of_nat (List.length dex))
             (fun i => match nth_error dex (N.to_nat i) with
                       | Some e => hash <=? e_hash e
                       | None => false
                       end) in
  match nth_error dex (N.to_nat n) with
  | None => Panic
  | Some e => if e_hash e =? hash then Ret (e_offset e) else Panic
  end.

(** glyphset.go:36-47: one alias *)
Definition add_alias (m3Seed : N) (ix : list (ublock * block_index)) (a : gcalias)
  : res (list (ublock * block_index)) :=
  canon <- string_from_hex_gc (canon_hex a) ;;
  c <- first_rune canon ;;
  block <- ublock_of c ;;
  off <- find_data_offset ix block canon m3Seed ;;
  alias <- string_from_hex_gc (alias_hex a) ;;
  gs_insert ix alias m3Seed off.

(** glyphset.go:35-48: AddAliasesToIndex *)
Definition add_aliases (g : glyph_set) (aliasList : list gcalias) (m3Seed : N) : res glyph_set :=
  ix <- fold_res (add_alias m3Seed) aliasList (gs_index g) ;;
  Ret (GlyphSet (gs_code g) (gs_len g) ix).

(** glyphset.go:72-79: IndexKeys; each key with its index *)
Definition index_keys (g : glyph_set) : list (ublock * block_index) :=
  sort_by (fun kb => fst (fst kb)) (gs_index g).

(** ** codegen/lib/templates.go *)

(** Cut a list into the 512-element pieces of a [bigarr] *)
Fixpoint pieces (fuel : nat) (l : list N) : bigarr :=
  match fuel with
  | O => []
  | S fuel' =>
      match l with
      | [] => []
      | _ => firstn 512 l :: pieces fuel' (skipn 512 l)
      end
  end.

(** templates.go:99-110, 116-139: the match arm, hash and offset tables of a block *)
Definition render_block (kb : ublock * block_index) : block :=
  let '((low, high), dex) := kb in
  Block low high (cluster_length_list dex) (map e_hash dex) (map e_offset dex).

(** templates.go:19-22, 62-167: the constants of the rendered Rust file.  The file
    compiles only if Size fits in u8. *)
Definition render_font (f : fontspec) (g : glyph_set) (m3Seed : N) : font :=
  Font (Z.to_N (fs_size f)) m3Seed (map render_block (index_keys g))
       (pieces (S (List.length (gs_code g))) (gs_code g)).

(** main.go:34-43: one font *)
Definition generate (f : fontspec) (img : image) (csList : list charspec)
  (aliasList : list gcalias) : res font :=
  pl <- pattern_list img f csList ;;
  g <- new_glyph_set_from pl (fs_seed f) ;;
  g <- add_aliases g aliasList (fs_seed f) ;;
  Ret (render_font f g (fs_seed f)).
