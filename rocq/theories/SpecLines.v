(** * Specification for the generator's text files: names, white space, comments

    A file is a list of bytes. None of the generator's functions is used here. *)
From Coq Require Import ZArith.
From Verif Require Import Prim.

(** UTF-8 bytes of a character below U+10000 *)
Definition utf8 (c : N) : list N :=
  if c <? 0x80 then [c]
  else if c <? 0x800 then [0xC0 + c / 64; 0x80 + c mod 64]
  else [0xE0 + c / 4096; 0x80 + c / 64 mod 64; 0x80 + c mod 64].

(** Unicode's white space characters (property White_Space), without newline *)
Definition white (c : N) : Prop :=
  In c [9; 11; 12; 13; 32; 0x85; 0xA0; 0x1680; 0x2000; 0x2001; 0x2002; 0x2003; 0x2004;
        0x2005; 0x2006; 0x2007; 0x2008; 0x2009; 0x200A; 0x2028; 0x2029; 0x202F; 0x205F; 0x3000].

(** Zero or more white space characters *)
Definition blank (s : list N) : Prop := exists cs, Forall white cs /\ s = concat (map utf8 cs).

(** The bytes of cluster names: 0-9, A-F, a-f and '-' *)
Definition name_byte (b : N) : Prop :=
  48 <= b <= 57 \/ 65 <= b <= 70 \/ 97 <= b <= 102 \/ b = 45.
Definition name (s : list N) : Prop := s <> [] /\ Forall name_byte s.

(** No newline *)
Definition one_line (s : list N) : Prop := ~ In 10 s.

(** '#' and the comment, or nothing *)
Definition comment (s : list N) : Prop := s = [] \/ exists text, s = 35 :: text /\ one_line text.

(** A line with the given content, between white space, before an optional comment *)
Definition line_with (content line : list N) : Prop :=
  exists before after remark,
    blank before /\ blank after /\ comment remark /\ line = before ++ content ++ after ++ remark.

(** Lines of an index file: with a name, or without *)
Inductive index_lines : list (list N) -> list (list N) -> Prop :=
| il_nil : index_lines [] []
| il_name n l ns ls : name n -> line_with n l -> index_lines ns ls -> index_lines (n :: ns) (l :: ls)
| il_skip l ns ls : line_with [] l -> index_lines ns ls -> index_lines ns (l :: ls).

(** Lines of an alias file: two names with one space between them, or no name *)
Inductive alias_lines : list (list N * list N) -> list (list N) -> Prop :=
| al_nil : alias_lines [] []
| al_pair c a l ps ls : name c -> name a -> line_with (c ++ 32 :: a) l ->
    alias_lines ps ls -> alias_lines ((c, a) :: ps) (l :: ls)
| al_skip l ps ls : line_with [] l -> alias_lines ps ls -> alias_lines ps (l :: ls).

(** The file with these lines: a newline between any two *)
Fixpoint file (lines : list (list N)) : list N :=
  match lines with
  | [] => []
  | [l] => l
  | l :: rest => l ++ 10 :: file rest
  end.

(** Where the i-th glyph is on a sheet with [columns] glyphs in each row *)
Definition row_major (columns : Z) (i : nat) : Z * Z :=
  (Z.of_nat i / columns, Z.of_nat i mod columns)%Z.
