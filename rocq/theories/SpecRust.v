(** * What a generated font file says, read as Rust source

    A small reader of Rust text, written without reference to the generator: it
    splits the text into tokens, follows the form of a font file (src/fonts/*.rs),
    and looks up the functions and tables by name.  [None] means that the text does
    not have this form, that a name is defined twice or not at all, or that an array
    does not have its declared length, or that a number does not fit its type. *)
From Coq Require Import String Ascii.
From Verif Require Import Prim Str FontDefs.
Local Open Scope N_scope.
Local Open Scope list_scope.
Local Notation length := List.length.

(** ** Tokens *)

(** Identifiers, keywords and numbers are words; every other character that is not
    white space is a token of its own. *)
Inductive tok := Word (w : str) | Sym (c : N).

Definition word_char (c : N) : bool :=
  ((48 <=? c) && (c <=? 57)) || ((65 <=? c) && (c <=? 90)) || ((97 <=? c) && (c <=? 122)) || (c =? 95).
Definition white (c : N) : bool := (c =? 32) || ((9 <=? c) && (c <=? 13)).

(** The reader is between tokens, in a word (kept in reverse), after a slash, or in a
    line comment *)
Inductive mode := Ground | InWord (w : str) | Slash | Comment.

Definition next_token (c : N) : list tok * mode :=
  if word_char c then ([], InWord [c])
  else if c =? 47 then ([], Slash)
  else if white c then ([], Ground)
  else ([Sym c], Ground).

Definition step (m : mode) (c : N) : list tok * mode :=
  match m with
  | Ground => next_token c
  | InWord w =>
      if word_char c then ([], InWord (c :: w))
      else let '(out, m) := next_token c in (Word (rev w) :: out, m)
  | Slash =>
      if c =? 47 then ([], Comment)
      else let '(out, m) := next_token c in (Sym 47 :: out, m)
  | Comment => if c =? 10 then ([], Ground) else ([], Comment)
  end.

Fixpoint scan (m : mode) (s : str) : list tok * mode :=
  match s with
  | [] => ([], m)
  | c :: t =>
      let '(out, m) := step m c in
      let '(more, m) := scan m t in
      (out ++ more, m)
  end.

Definition last_token (m : mode) : list tok :=
  match m with InWord w => [Word (rev w)] | Slash => [Sym 47] | _ => [] end.

Definition tokens (s : str) : list tok :=
  let '(out, m) := scan Ground s in out ++ last_token m.

(** Tokens of a piece of program text *)
Fixpoint chars (s : string) : str :=
  match s with EmptyString => [] | String a t => N_of_ascii a :: chars t end.
Definition rust (s : string) : list tok := tokens (chars s).

(** ** Numbers *)
Definition dec_digit (c : N) : option N :=
  if (48 <=? c) && (c <=? 57) then Some (c - 48) else None.
Definition hexa_digit (c : N) : option N :=
  if (48 <=? c) && (c <=? 57) then Some (c - 48)
  else if (65 <=? c) && (c <=? 70) then Some (c - 55)
  else if (97 <=? c) && (c <=? 102) then Some (c - 87)
  else None.
Fixpoint number (base : N) (digit : N -> option N) (acc : N) (s : str) : option N :=
  match s with
  | [] => Some acc
  | c :: t => match digit c with Some d => number base digit (acc * base + d) t | None => None end
  end.

(** 255, 0xff or 0xFF *)
Definition literal (w : str) : option N :=
  match w with
  | [] => None
  | z :: x :: ((_ :: _) as h) =>
      if (z =? 48) && (x =? 120) then number 16 hexa_digit 0 h else number 10 dec_digit 0 w
  | _ => number 10 dec_digit 0 w
  end.

(** ** Pieces of a file *)
Definition reader (A : Type) : Type := list tok -> option (A * list tok).

Definition tok_eqb (a b : tok) : bool :=
  match a, b with
  | Word v, Word w => if list_eq_dec N.eq_dec v w then true else false
  | Sym c, Sym d => c =? d
  | _, _ => false
  end.

(** These tokens, nothing else *)
Fixpoint expect (p ts : list tok) : option (list tok) :=
  match p, ts with
  | [], _ => Some ts
  | a :: p', b :: ts' => if tok_eqb a b then expect p' ts' else None
  | _ :: _, [] => None
  end.

Definition word (ts : list tok) : option (str * list tok) :=
  match ts with Word w :: rest => Some (w, rest) | _ => None end.
Definition int (ts : list tok) : option (N * list tok) :=
  match ts with
  | Word w :: rest => match literal w with Some n => Some (n, rest) | None => None end
  | _ => None
  end.

Notation "'read' x <- e 'in' k" := (match e with Some x => k | None => None end)
  (at level 200, x pattern, e at level 100, k at level 200).

(** Numbers, each followed by a comma *)
Fixpoint ints (ts : list tok) : list N * list tok :=
  match ts with
  | Word w :: Sym c :: rest =>
      match literal w with
      | Some n => if c =? 44 then let '(l, rest) := ints rest in (n :: l, rest) else ([], ts)
      | None => ([], ts)
      end
  | _ => ([], ts)
  end.

(** if let Some((offset, bytes_used)) = F(cluster, N) { Ok((GlyphData::V(offset),
    bytes_used)) } else *)
Record attempt := Attempt { a_fn : str; a_limit : N; a_variant : str }.
Definition read_attempt (ts : list tok) : option (attempt * list tok) :=
  read ts <- expect (rust "if let Some((offset, bytes_used)) =") ts in
  read (f, ts) <- word ts in
  read ts <- expect (rust "(cluster,") ts in
  read (n, ts) <- int ts in
  read ts <- expect (rust ") { Ok((GlyphData::") ts in
  read (v, ts) <- word ts in
  read ts <- expect (rust "(offset), bytes_used)) } else") ts in
  Some (Attempt f n v, ts).

(** As many times as possible; [fuel] bounds them *)
Fixpoint many {A} (fuel : nat) (p : reader A) (ts : list tok) : list A * list tok :=
  match fuel with
  | O => ([], ts)
  | S fuel' =>
      match p ts with
      | Some (a, ts') => let '(l, rest) := many fuel' p ts' in (a :: l, rest)
      | None => ([], ts)
      end
  end.
Definition many_of {A} (p : reader A) (ts : list tok) : list A * list tok := many (length ts) p ts.

(** LOW..=HIGH => { attempts { Err(NoGlyphErr) } } *)
Record arm := Arm { r_low : N; r_high : N; r_attempts : list attempt }.
Definition read_arm (ts : list tok) : option (arm * list tok) :=
  read (lo, ts) <- int ts in
  read ts <- expect (rust "..=") ts in
  read (hi, ts) <- int ts in
  read ts <- expect (rust "=> {") ts in
  let '(l, ts) := many_of read_attempt ts in
  read ts <- expect (rust "{ Err(NoGlyphErr) } }") ts in
  Some (Arm lo hi l, ts).

(** fn F(...) { ... HASHES.binary_search(&key) ... OFFSETS[index] ... } or
    const NAME: [TYPE; LENGTH] = [...]; *)
Inductive item :=
| FnItem (name hashes offsets : str)
| ConstItem (name ty : str) (len : N) (values : list N).
Definition read_item (ts : list tok) : option (item * list tok) :=
  match expect (rust "fn") ts with
  | Some ts =>
      read (f, ts) <- word ts in
      read ts <- expect (rust "(cluster: &str, limit: u32) -> Option<(usize, usize)> {
                               let (key, bytes_hashed) = super::murmur3(cluster, M3_SEED, limit);
                               match") ts in
      read (h, ts) <- word ts in
      read ts <- expect (rust ".binary_search(&key) { Ok(index) => return Some((") ts in
      read (o, ts) <- word ts in
      read ts <- expect (rust "[index], bytes_hashed)), _ => None, } }") ts in
      Some (FnItem f h o, ts)
  | None =>
      read ts <- expect (rust "const") ts in
      read (c, ts) <- word ts in
      read ts <- expect (rust ": [") ts in
      read (ty, ts) <- word ts in
      read ts <- expect (rust ";") ts in
      read (n, ts) <- int ts in
      read ts <- expect (rust "] = [") ts in
      let '(l, ts) := ints ts in
      read ts <- expect (rust "];") ts in
      Some (ConstItem c ty n l, ts)
  end.

(** The whole file, up to its test module *)
Record source := Source {
  s_max_height : N; s_seed : N; s_arms : list arm; s_items : list item;
  s_data_len : N; s_data : list N
}.
Definition read_source (ts : list tok) : option source :=
  read ts <- expect (rust "#![forbid(unsafe_code)] #![allow(dead_code)]
                           use super::{GlyphData, NoGlyphErr};
                           pub const MAX_HEIGHT: u8 =") ts in
  read (height, ts) <- int ts in
  read ts <- expect (rust "; pub const M3_SEED: u32 =") ts in
  read (seed, ts) <- int ts in
  read ts <- expect (rust "; pub fn get_blit_pattern_offset(cluster: &str)
                             -> Result<(GlyphData, usize), NoGlyphErr> {
                           let first_char: u32;
                           match cluster.chars().next() {
                               Some(c) => first_char = c as u32,
                               None => return Err(NoGlyphErr),
                           }
                           return match first_char {") ts in
  let '(arms, ts) := many_of read_arm ts in
  read ts <- expect (rust "_ => Err(super::NoGlyphErr), }; }") ts in
  let '(items, ts) := many_of read_item ts in
  read ts <- expect (rust "pub const DATA: [u32;") ts in
  read (len, ts) <- int ts in
  read ts <- expect (rust "] = [") ts in
  let '(data, ts) := ints ts in
  read ts <- expect (rust "]; #[cfg(test)] mod tests {") ts in
  Some (Source height seed arms items len data).

(** ** Meaning *)

Definition same (a b : str) : bool := if list_eq_dec N.eq_dec a b then true else false.

Definition item_name (i : item) : str :=
  match i with FnItem n _ _ => n | ConstItem n _ _ _ => n end.

Fixpoint distinct (l : list str) : bool :=
  match l with [] => true | a :: t => negb (existsb (same a) t) && distinct t end.

(** The tables a find function uses *)
Definition fn_tables (items : list item) (f : str) : option (str * str) :=
  match find (fun i => same (item_name i) f) items with
  | Some (FnItem _ h o) => Some (h, o)
  | _ => None
  end.

(** The values of an array of type [TYPE; LENGTH] *)
Definition array_of (fits : N -> bool) (len : N) (values : list N) : option (list N) :=
  if (N.of_nat (length values) =? len) && forallb fits values then Some values else None.
Definition table_of (items : list item) (ty : str) (fits : N -> bool) (name : str) : option (list N) :=
  match find (fun i => same (item_name i) name) items with
  | Some (ConstItem _ ty' len values) => if same ty' ty then array_of fits len values else None
  | _ => None
  end.

(** u32; of usize no bound is required *)
Definition fits_u32 (n : N) : bool := n <? 2 ^ 32.
Definition fits_usize (n : N) : bool := true.

(** One arm, when all its attempts use the same function and the variant [name] of
    GlyphData *)
Definition arm_block (items : list item) (name : str) (r : arm) : option block :=
  match r_attempts r with
  | [] => None
  | a :: _ =>
      if forallb (fun b => same (a_fn b) (a_fn a) && same (a_variant b) name && fits_u32 (a_limit b)) (r_attempts r) then
        read (h, o) <- fn_tables items (a_fn a) in
        read hashes <- table_of items (chars "u32") fits_u32 h in
        read offsets <- table_of items (chars "usize") fits_usize o in
        Some (Block (r_low r) (r_high r) (map a_limit (r_attempts r)) hashes offsets)
      else None
  end.

Fixpoint all_some {A} (l : list (option A)) : option (list A) :=
  match l with
  | [] => Some []
  | Some a :: t => match all_some t with Some r => Some (a :: r) | None => None end
  | None :: _ => None
  end.

(** The constants of the font: MAX_HEIGHT, M3_SEED, blocks, DATA *)
Record constants := Constants { k_max_height : N; k_seed : N; k_blocks : list block; k_data : list N }.

Definition meaning (name : str) (s : source) : option constants :=
  if distinct (map item_name (s_items s)) && (s_max_height s <? 256) && fits_u32 (s_seed s) then
    read blocks <- all_some (map (arm_block (s_items s) name) (s_arms s)) in
    read data <- array_of fits_u32 (s_data_len s) (s_data s) in
    Some (Constants (s_max_height s) (s_seed s) blocks data)
  else None.

Definition read_rust (name text : str) : option constants :=
  read s <- read_source (tokens text) in meaning name s.

(** Text in which every line is a comment or blank *)
Definition only_comments (text : str) : Prop := tokens text = [].

(** A name that can be used as the name of a variant of GlyphData *)
Definition name_ok (name : str) : Prop := name <> [] /\ forallb word_char name = true.

(** The constants of a font *)
Definition constants_of (fnt : font) : constants :=
  Constants (f_max_height fnt) (f_seed fnt) (f_blocks fnt) (concat (f_data fnt)).
