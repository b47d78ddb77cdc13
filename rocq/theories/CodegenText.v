(** * Model of the generator's text index files, codegen/lib/charspec.go:60-116

    A file is the list of its bytes; reading the file itself (ioutil.ReadFile) is
    not modelled. *)
From Coq Require Import ZArith.
From Verif Require Import Prim Str FontDefs Codegen.

(** The characters with unicode.IsSpace (Go standard library), in UTF-8: \t \n \v
    \f \r, space, U+0085, U+00A0, U+1680, U+2000-200A, U+2028, U+2029, U+202F,
    U+205F, U+3000 *)
Definition go_spaces : list (list N) :=
  [[9]; [10]; [11]; [12]; [13]; [32]; [0xC2; 0x85]; [0xC2; 0xA0]; [0xE1; 0x9A; 0x80];
   [0xE2; 0x80; 0x80]; [0xE2; 0x80; 0x81]; [0xE2; 0x80; 0x82]; [0xE2; 0x80; 0x83];
   [0xE2; 0x80; 0x84]; [0xE2; 0x80; 0x85]; [0xE2; 0x80; 0x86]; [0xE2; 0x80; 0x87];
   [0xE2; 0x80; 0x88]; [0xE2; 0x80; 0x89]; [0xE2; 0x80; 0x8A]; [0xE2; 0x80; 0xA8];
   [0xE2; 0x80; 0xA9]; [0xE2; 0x80; 0xAF]; [0xE2; 0x81; 0x9F]; [0xE3; 0x80; 0x80]].

(** The rest of s after the prefix p *)
Fixpoint strip_prefix (p s : list N) : option (list N) :=
  match p, s with
  | [], _ => Some s
  | a :: p', b :: s' => if a =? b then strip_prefix p' s' else None
  | _ :: _, [] => None
  end.

(** The rest of s after one of the prefixes *)
Fixpoint strip_one (ps : list (list N)) (s : list N) : option (list N) :=
  match ps with
  | [] => None
  | p :: ps' => match strip_prefix p s with Some t => Some t | None => strip_one ps' s end
  end.

(** Remove prefixes while there are any; [fuel] bounds the iterations *)
Fixpoint strip_all (fuel : nat) (ps : list (list N)) (s : list N) : list N :=
  match fuel with
  | O => s
  | S fuel' => match strip_one ps s with Some t => strip_all fuel' ps t | None => s end
  end.

(** strings.TrimSpace (Go standard library): white space is removed from the
    left, then from the right.  The last character of a text is the one whose
    encoding the text ends with. *)
Definition trim_space (s : list N) : list N :=
  let s := strip_all (length s) go_spaces s in
  rev (strip_all (length s) (map (@rev N) go_spaces) (rev s)).

(** strings.SplitN(line, "#", 2)[0] *)
Fixpoint before_hash (line : list N) : list N :=
  match line with
  | [] => []
  | b :: t => if b =? 35 then [] else b :: before_hash t
  end.

(** charspec.go:77, 106: what counts of a line *)
Definition line_text (line : list N) : list N := trim_space (before_hash line).

(** charspec.go:75-89: the loop of EmojiMap *)
Fixpoint emoji_map_loop (columns : Z) (lines : list (list N)) (row col : Z) : list charspec :=
  match lines with
  | [] => []
  | line :: rest =>
      match line_text line with
      | [] => emoji_map_loop columns rest row col
      | txt =>
          CharSpec txt row col ::
          (if (col + 1 =? columns)%Z then emoji_map_loop columns rest (row + 1) 0
           else emoji_map_loop columns rest row (col + 1))
      end
  end.

(** charspec.go:62-91: EmojiMap *)
Definition emoji_map (columns : Z) (text : list N) : list charspec :=
  emoji_map_loop columns (split_on 10 text) 0 0.

(** charspec.go:104-114: the loop body of EmojiAliases *)
Definition alias_line (line : list N) : list gcalias :=
  match split_on 32 (line_text line) with
  | [primary; alias] =>
      match primary, alias with
      | _ :: _, _ :: _ => [GCAlias primary alias]
      | _, _ => []
      end
  | _ => []
  end.

(** charspec.go:94-116: EmojiAliases *)
Definition emoji_aliases_of (text : list N) : list gcalias :=
  flat_map alias_line (split_on 10 text).
