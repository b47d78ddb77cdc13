(** * Model of the generator's configuration and of its main program:
    codegen/lib/config.go, main.go:15-46, 60-80, templates.go:12-16, 49-59

    A Go string is the list of its bytes.  encoding/json is modelled as far as the
    generator uses it; not modelled: its limit on nested values (10000) and, when a
    key is repeated, that an array decoded before the last one may leave traces. *)
From Coq Require Import ZArith String Ascii.
From Verif Require Import Prim Str FontDefs Codegen CodegenText Render.
Local Open Scope N_scope.
Local Open Scope list_scope.
Local Notation length := List.length.

(** ** JSON (encoding/json, Go standard library) *)
Inductive json :=
| JNull
| JBool (b : bool)
| JNum (text : list N)
| JStr (s : list N)
| JArr (l : list json)
| JObj (l : list (list N * json)).

Definition json_space (c : N) : bool := (c =? 32) || (c =? 9) || (c =? 10) || (c =? 13).
Fixpoint skip_space (s : list N) : list N :=
  match s with
  | c :: t => if json_space c then skip_space t else s
  | [] => []
  end.

(** utf8.DecodeRune: the character at the start of s and the number of its bytes *)
Definition cont (lo hi : N) (s : list N) : bool :=
  match s with b :: _ => (lo <=? b) && (b <=? hi) | [] => false end.
Definition tail6 (s : list N) : N := match s with b :: _ => b mod 64 | [] => 0 end.
Definition decode_rune (s : list N) : N * nat :=
  match s with
  | [] => (0xFFFD, O)
  | b :: t =>
      if b <? 0x80 then (b, 1%nat)
      else if (0xC2 <=? b) && (b <=? 0xDF) && cont 0x80 0xBF t then ((b mod 32) * 64 + tail6 t, 2%nat)
      else if (0xE0 <=? b) && (b <=? 0xEF)
              && cont (if b =? 0xE0 then 0xA0 else 0x80) (if b =? 0xED then 0x9F else 0xBF) t
              && cont 0x80 0xBF (tl t)
           then ((b mod 16) * 4096 + tail6 t * 64 + tail6 (tl t), 3%nat)
      else if (0xF0 <=? b) && (b <=? 0xF4)
              && cont (if b =? 0xF0 then 0x90 else 0x80) (if b =? 0xF4 then 0x8F else 0xBF) t
              && cont 0x80 0xBF (tl t) && cont 0x80 0xBF (tl (tl t))
           then ((b mod 8) * 262144 + tail6 t * 4096 + tail6 (tl t) * 64 + tail6 (tl (tl t)), 4%nat)
      else (0xFFFD, 1%nat)
  end.

(** XXXX of \uXXXX *)
Definition hex4 (s : list N) : option (N * list N) :=
  match s with
  | a :: b :: c :: d :: t =>
      match hex_digit a, hex_digit b, hex_digit c, hex_digit d with
      | Some a, Some b, Some c, Some d => Some (((a * 16 + b) * 16 + c) * 16 + d, t)
      | _, _, _, _ => None
      end
  | _ => None
  end.

(** After \u: one UTF-16 unit, or two that make a pair; half a pair is U+FFFD *)
Definition unicode_escape (s : list N) : option (N * list N) :=
  match hex4 s with
  | None => None
  | Some (u, t) =>
      if (0xD800 <=? u) && (u <? 0xE000) then
        match t with
        | 92 :: 117 :: t' =>
            match hex4 t' with
            | Some (v, t'') =>
                if (u <? 0xDC00) && (0xDC00 <=? v) && (v <? 0xE000)
                then Some (0x10000 + (u - 0xD800) * 1024 + (v - 0xDC00), t'')
                else Some (0xFFFD, t)
            | None => Some (0xFFFD, t)
            end
        | _ => Some (0xFFFD, t)
        end
      else Some (u, t)
  end.

(** A string, after its first quotation mark; [fuel] bounds the characters *)
Fixpoint json_string (fuel : nat) (s : list N) : option (list N * list N) :=
  match fuel with
  | O => None
  | S fuel' =>
      let push (out rest : list N) :=
        match json_string fuel' rest with
        | Some (w, rest) => Some (out ++ w, rest)
        | None => None
        end in
      match s with
      | [] => None
      | c :: t =>
          if c =? 34 then Some ([], t)
          else if c <? 32 then None
          else if c =? 92 then
            match t with
            | [] => None
            | e :: t' =>
                if (e =? 34) || (e =? 92) || (e =? 47) then push [e] t'
                else if e =? 98 then push [8] t'
                else if e =? 102 then push [12] t'
                else if e =? 110 then push [10] t'
                else if e =? 114 then push [13] t'
                else if e =? 116 then push [9] t'
                else if e =? 117 then
                  match unicode_escape t' with
                  | Some (u, rest) => push (utf8_rune u) rest
                  | None => None
                  end
                else None
            end
          else let '(r, n) := decode_rune s in push (utf8_rune r) (skipn n s)
      end
  end.

(** Decimal digits *)
Fixpoint take_digits (s : list N) : list N * list N :=
  match s with
  | c :: t =>
      if (48 <=? c) && (c <=? 57) then let '(d, rest) := take_digits t in (c :: d, rest) else ([], s)
  | [] => ([], [])
  end.

(** A number: its text *)
Definition json_number (s : list N) : option (list N * list N) :=
  let '(sign, s) := match s with 45 :: t => ([45], t) | _ => ([], s) end in
  let '(whole, s) := take_digits s in
  match whole with
  | [] => None
  | d :: more =>
      if (d =? 48) && negb (match more with [] => true | _ => false end) then None
      else
        let fraction :=
          match s with
          | 46 :: t => match take_digits t with ([], _) => None | (f, t) => Some (46 :: f, t) end
          | _ => Some ([], s)
          end in
        match fraction with
        | None => None
        | Some (f, s) =>
            match s with
            | e :: t =>
                if (e =? 101) || (e =? 69) then
                  let '(esign, t) :=
                    match t with
                    | c :: t' => if (c =? 43) || (c =? 45) then ([c], t') else ([], t)
                    | [] => ([], [])
                    end in
                  match take_digits t with
                  | ([], _) => None
                  | (x, t) => Some (sign ++ whole ++ f ++ e :: esign ++ x, t)
                  end
                else Some (sign ++ whole ++ f, s)
            | [] => Some (sign ++ whole ++ f, s)
            end
        end
  end.

(** A value, the elements of an array, the members of an object; [fuel] bounds the
    recursion *)
Fixpoint json_value (fuel : nat) (s : list N) : option (json * list N) :=
  match fuel with
  | O => None
  | S fuel' =>
      match skip_space s with
      | [] => None
      | c :: t =>
          if c =? 123 then
            match skip_space t with
            | d :: t' =>
                if d =? 125 then Some (JObj [], t')
                else match json_members fuel' t with Some (l, rest) => Some (JObj l, rest) | None => None end
            | [] => None
            end
          else if c =? 91 then
            match skip_space t with
            | d :: t' =>
                if d =? 93 then Some (JArr [], t')
                else match json_elements fuel' t with Some (l, rest) => Some (JArr l, rest) | None => None end
            | [] => None
            end
          else if c =? 34 then
            match json_string (S (length t)) t with Some (w, rest) => Some (JStr w, rest) | None => None end
          else if c =? 116 then
            match strip_prefix (lit "true") (c :: t) with Some rest => Some (JBool true, rest) | None => None end
          else if c =? 102 then
            match strip_prefix (lit "false") (c :: t) with Some rest => Some (JBool false, rest) | None => None end
          else if c =? 110 then
            match strip_prefix (lit "null") (c :: t) with Some rest => Some (JNull, rest) | None => None end
          else match json_number (c :: t) with Some (w, rest) => Some (JNum w, rest) | None => None end
      end
  end
with json_elements (fuel : nat) (s : list N) : option (list json * list N) :=
  match fuel with
  | O => None
  | S fuel' =>
      match json_value fuel' s with
      | None => None
      | Some (v, rest) =>
          match skip_space rest with
          | [] => None
          | c :: t =>
              if c =? 93 then Some ([v], t)
              else if c =? 44 then
                match json_elements fuel' t with Some (l, rest) => Some (v :: l, rest) | None => None end
              else None
          end
      end
  end
with json_members (fuel : nat) (s : list N) : option (list (list N * json) * list N) :=
  match fuel with
  | O => None
  | S fuel' =>
      match skip_space s with
      | [] => None
      | q :: t =>
          if q =? 34 then
            match json_string (S (length t)) t with
            | None => None
            | Some (k, rest) =>
                match skip_space rest with
                | [] => None
                | c :: t =>
                    if c =? 58 then
                      match json_value fuel' t with
                      | None => None
                      | Some (v, rest) =>
                          match skip_space rest with
                          | [] => None
                          | c :: t =>
                              if c =? 125 then Some ([(k, v)], t)
                              else if c =? 44 then
                                match json_members fuel' t with
                                | Some (l, rest) => Some ((k, v) :: l, rest)
                                | None => None
                                end
                              else None
                          end
                      end
                    else None
                end
            end
          else None
      end
  end.

(** A whole text *)
Definition parse_json (s : list N) : option json :=
  match json_value (2 * length s + 2) s with
  | Some (v, rest) => match skip_space rest with [] => Some v | _ => None end
  | None => None
  end.

(** ** json.Unmarshal *)

(** A key without regard to case: letters become small, U+212A is k, U+017F is s *)
Fixpoint fold_key (s : list N) : list N :=
  match s with
  | 0xE2 :: (0x84 :: (0xAA :: t)) => 107 :: fold_key t
  | 0xC5 :: (0xBF :: t) => 115 :: fold_key t
  | c :: t => (if (65 <=? c) && (c <=? 90) then c + 32 else c) :: fold_key t
  | [] => []
  end.
Definition key_is (field : string) (key : list N) : bool :=
  if list_eq_dec N.eq_dec (fold_key (lit field)) (fold_key key) then true else false.

(** Values for a string, an int, a uint32 and a list; null changes nothing, any other
    kind of value is an error, which the generator makes a panic *)
Definition dec_string (old : list N) (v : json) : res (list N) :=
  match v with JStr s => Ret s | JNull => Ret old | _ => Panic end.

Fixpoint decimal (acc : N) (s : list N) : option N :=
  match s with
  | [] => Some acc
  | c :: t => if (48 <=? c) && (c <=? 57) then decimal (acc * 10 + (c - 48)) t else None
  end.
Definition decimal_of (s : list N) : option N := match s with [] => None | _ => decimal 0 s end.

(** strconv.ParseInt(s, 10, 64); int has 64 bits *)
Definition dec_int (old : Z) (v : json) : res Z :=
  match v with
  | JNum s =>
      let '(neg, s) := match s with 45 :: t => (true, t) | _ => (false, s) end in
      match decimal_of s with
      | None => Panic
      | Some n =>
          let z := if neg then (- Z.of_N n)%Z else Z.of_N n in
          if ((- 2 ^ 63 <=? z) && (z <? 2 ^ 63))%Z then Ret z else Panic
      end
  | JNull => Ret old
  | _ => Panic
  end.
Definition dec_uint32 (old : N) (v : json) : res N :=
  match v with
  | JNum s => match decimal_of s with Some n => if n <? 2 ^ 32 then Ret n else Panic | None => Panic end
  | JNull => Ret old
  | _ => Panic
  end.
Definition dec_list {A} (dec : json -> res A) (v : json) : res (list A) :=
  match v with JArr l => map_res dec l | JNull => Ret [] | _ => Panic end.

(** An object, member by member *)
Definition dec_object {A} (set : A -> list N -> json -> res A) (zero : A) (v : json) : res A :=
  match v with
  | JObj l => fold_res (fun a kv => set a (fst kv) (snd kv)) l zero
  | JNull => Ret zero
  | _ => Panic
  end.

(** ** codegen/lib/config.go *)

(** config.go:20-34 *)
Record config_set := ConfigSet {
  cg_name : list N; cg_seed : N; cg_sprites : list N; cg_size : Z; cg_cols : Z; cg_gutter : Z; cg_border : Z;
  cg_legal : list N; cg_index : list N; cg_index_type : list N; cg_aliases : list N; cg_trim : list N; cg_out : list N
}.
Definition zero_set : config_set := ConfigSet [] 0 [] 0 0 0 0 [] [] [] [] [] [].

Definition set_field (g : config_set) (key : list N) (v : json) : res config_set :=
  let '(ConfigSet name seed sprites size cols gutter border legal index index_type aliases trim out) := g in
  if key_is "Name" key then
    x <- dec_string name v ;; Ret (ConfigSet x seed sprites size cols gutter border legal index index_type aliases trim out)
  else if key_is "M3Seed" key then
    x <- dec_uint32 seed v ;; Ret (ConfigSet name x sprites size cols gutter border legal index index_type aliases trim out)
  else if key_is "Sprites" key then
    x <- dec_string sprites v ;; Ret (ConfigSet name seed x size cols gutter border legal index index_type aliases trim out)
  else if key_is "Size" key then
    x <- dec_int size v ;; Ret (ConfigSet name seed sprites x cols gutter border legal index index_type aliases trim out)
  else if key_is "Cols" key then
    x <- dec_int cols v ;; Ret (ConfigSet name seed sprites size x gutter border legal index index_type aliases trim out)
  else if key_is "Gutter" key then
    x <- dec_int gutter v ;; Ret (ConfigSet name seed sprites size cols x border legal index index_type aliases trim out)
  else if key_is "Border" key then
    x <- dec_int border v ;; Ret (ConfigSet name seed sprites size cols gutter x legal index index_type aliases trim out)
  else if key_is "Legal" key then
    x <- dec_string legal v ;; Ret (ConfigSet name seed sprites size cols gutter border x index index_type aliases trim out)
  else if key_is "Index" key then
    x <- dec_string index v ;; Ret (ConfigSet name seed sprites size cols gutter border legal x index_type aliases trim out)
  else if key_is "IndexType" key then
    x <- dec_string index_type v ;; Ret (ConfigSet name seed sprites size cols gutter border legal index x aliases trim out)
  else if key_is "Aliases" key then
    x <- dec_string aliases v ;; Ret (ConfigSet name seed sprites size cols gutter border legal index index_type x trim out)
  else if key_is "GlyphTrim" key then
    x <- dec_string trim v ;; Ret (ConfigSet name seed sprites size cols gutter border legal index index_type aliases x out)
  else if key_is "RustOut" key then
    x <- dec_string out v ;; Ret (ConfigSet name seed sprites size cols gutter border legal index index_type aliases trim x)
  else Ret g.

(** config.go:14-17; of Comment only the type matters *)
Definition set_config (l : list config_set) (key : list N) (v : json) : res (list config_set) :=
  if key_is "Comment" key then _ <- dec_list (dec_string []) v ;; Ret l
  else if key_is "GlyphSets" key then dec_list (dec_object set_field zero_set) v
  else Ret l.

(** ioutil.ReadFile: the contents of the files there are *)
Definition files := list N -> option (list N).
Definition read_file (fl : files) (name : list N) : res (list N) :=
  match fl name with Some text => Ret text | None => Panic end.

(** config.go:43-54: NewConfig *)
Definition new_config (fl : files) (name : list N) : res (list config_set) :=
  text <- read_file fl name ;;
  match parse_json text with
  | Some v => dec_object set_config [] v
  | None => Panic
  end.

(** config.go:72-82: readLegal *)
Definition read_legal (fl : files) (g : config_set) : res (list N) :=
  match cg_legal g with
  | [] => Ret []
  | name => text <- read_file fl name ;; Ret (trim_space text)
  end.

(** charspec.go:14-18 *)
Definition set_charspec (c : charspec) (key : list N) (v : json) : res charspec :=
  let '(CharSpec hex row col) := c in
  if key_is "Hex" key then x <- dec_string hex v ;; Ret (CharSpec x row col)
  else if key_is "Row" key then x <- dec_int row v ;; Ret (CharSpec hex x col)
  else if key_is "Col" key then x <- dec_int col v ;; Ret (CharSpec hex row x)
  else Ret c.

(** config.go:37-40 *)
Definition set_json_index (l : list charspec) (key : list N) (v : json) : res (list charspec) :=
  if key_is "Comment" key then _ <- dec_list (dec_string []) v ;; Ret l
  else if key_is "Map" key then dec_list (dec_object set_charspec (CharSpec [] 0 0)) v
  else Ret l.

(** config.go:107-118: readJsonClusterMap *)
Definition read_json_cluster_map (fl : files) (g : config_set) : res (list charspec) :=
  text <- read_file fl (cg_index g) ;;
  match parse_json text with
  | Some v => dec_object set_json_index [] v
  | None => Panic
  end.

(** config.go:85-94: graphemeClusterMap *)
Definition grapheme_cluster_map (fl : files) (g : config_set) : res (list charspec) :=
  if list_eq_dec N.eq_dec (cg_index_type g) (lit "txt-row-major") then
    text <- read_file fl (cg_index g) ;; Ret (emoji_map (cg_cols g) text)
  else if list_eq_dec N.eq_dec (cg_index_type g) (lit "json-grid-coord") then
    read_json_cluster_map fl g
  else Panic.

(** config.go:97-103: graphemeClusterAliases *)
Definition grapheme_cluster_aliases (fl : files) (g : config_set) : res (list gcalias) :=
  match cg_aliases g with
  | [] => Ret []
  | name => text <- read_file fl name ;; Ret (emoji_aliases_of text)
  end.

(** A string of the model *)
Fixpoint string_of (s : list N) : string :=
  match s with [] => EmptyString | b :: t => String (ascii_of_N b) (string_of t) end.

(** fontspec.go:7-20 *)
Record font_job := FontJob {
  fj_spec : fontspec; fj_sprites : list N; fj_legal : list N;
  fj_csl : list charspec; fj_aliases : list gcalias; fj_out : list N
}.

(** config.go:57-69: Fonts *)
Definition font_of (fl : files) (g : config_set) : res font_job :=
  legal <- read_legal fl g ;;
  csl <- grapheme_cluster_map fl g ;;
  aliases <- grapheme_cluster_aliases fl g ;;
  Ret (FontJob (FontSpec (string_of (cg_name g)) (cg_size g) (cg_cols g) (cg_gutter g) (cg_border g)
                         (string_of (cg_trim g)) (cg_seed g))
               (cg_sprites g) legal csl aliases (cg_out g)).
Definition fonts (fl : files) (c : list config_set) : res (list font_job) := map_res (font_of fl) c.

(** ** codegen/main.go *)

(** main.go:60-72: readPNGFile: the images there are *)
Definition images := list N -> option image.
Definition read_png (im : images) (name : list N) : res image :=
  match im name with Some img => Ret img | None => Panic end.

(** main.go:34-41 *)
Definition render_job (printable : N -> bool) (im : images) (j : font_job) : res (list N) :=
  img <- read_png im (fj_sprites j) ;;
  generate_text printable (fj_spec j) (fj_legal j) img (fj_csl j) (fj_aliases j).

(** What a run does: the files it writes (ioutil.WriteFile; its error is ignored),
    in order; what it prints; whether it ends without a panic *)
Record run := Run { r_writes : list (list N * list N); r_prints : list N; r_ok : bool }.

(** main.go:33-44: the loop *)
Fixpoint write_fonts (printable : N -> bool) (im : images) (jobs : list font_job) : run :=
  match jobs with
  | [] => Run [] [] true
  | j :: rest =>
      match render_job printable im j with
      | Panic => Run [] [] false
      | Ret code =>
          let r := write_fonts printable im rest in
          Run ((fj_out j, code) :: r_writes r) (lit "Writing to " ++ fj_out j ++ nl ++ r_prints r) (r_ok r)
      end
  end.

(** config.json *)
Definition config_name : list N := lit "config.json".

(** main.go:31-45: codegen *)
Definition codegen (printable : N -> bool) (fl : files) (im : images) : run :=
  match (c <- new_config fl config_name ;; fonts fl c) with
  | Panic => Run [] [] false
  | Ret jobs => write_fonts printable im jobs
  end.

(** templates.go:50-59 *)
Definition usage_text (confirm : list N) (jobs : list font_job) : list N :=
  nl ++ lit "This tool generates fonts in the form of rust source code." ++ nl
  ++ lit "To confirm that you want to write the files, use the " ++ confirm ++ lit " switch." ++ nl
  ++ nl
  ++ lit "Font files that will be generated:"
  ++ flat_map (fun j => nl ++ lit "  " ++ fj_out j) jobs ++ nl
  ++ nl
  ++ lit "Usage:" ++ nl
  ++ lit "    go run main.go " ++ confirm ++ nl.

(** main.go:16 *)
Definition confirm : list N := lit "--write".

(** main.go:75-80: usage *)
Definition usage (fl : files) : run :=
  match (c <- new_config fl config_name ;; fonts fl c) with
  | Panic => Run [] [] false
  | Ret jobs => Run [] (usage_text confirm jobs ++ nl) true
  end.

(** main.go:19-25; os.Args with the program's name first *)
Definition go_main (printable : N -> bool) (fl : files) (im : images) (args : list (list N)) : run :=
  match args with
  | [_; a] => if list_eq_dec N.eq_dec a confirm then codegen printable fl im else usage fl
  | _ => usage fl
  end.
