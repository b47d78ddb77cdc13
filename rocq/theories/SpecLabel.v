(** * Specification: reading the comments in a font file

    A table row is [    0x0BADF00D,  // "A"] or [    17,   // "A"]; a glyph record starts with
    [    // [17]: 1f3f4-200d "..." 1F3F4-200D].  A cluster is written in double quotes, with
    the escapes of Go and C for what cannot be shown. *)
From Coq Require Import ZArith String.
From Verif Require Import Prim Str SpecRust.
Local Open Scope N_scope.
Local Open Scope list_scope.

Definition is_digit (c : N) : bool := (48 <=? c) && (c <=? 57).

(** The first n characters as hexadecimal digits *)
Fixpoint read_hex (n : nat) (acc : N) (s : str) : option (N * str) :=
  match n with
  | O => Some (acc, s)
  | S n' =>
      match s with
      | c :: t => match hexa_digit c with Some d => read_hex n' (acc * 16 + d) t | None => None end
      | [] => None
      end
  end.
(** After a backslash *)
Definition read_escape (s : str) : option (N * str) :=
  match s with
  | e :: t =>
      if e =? 97 then Some (7, t) else if e =? 98 then Some (8, t) else if e =? 102 then Some (12, t)
      else if e =? 110 then Some (10, t) else if e =? 114 then Some (13, t) else if e =? 116 then Some (9, t)
      else if e =? 118 then Some (11, t) else if e =? 34 then Some (34, t) else if e =? 92 then Some (92, t)
      else if e =? 120 then read_hex 2 0 t else if e =? 117 then read_hex 4 0 t else if e =? 85 then read_hex 8 0 t
      else None
  | [] => None
  end.
(** One character of UTF-8 *)
Definition read_char (s : str) : option (N * str) :=
  match s with
  | a :: t =>
      if a <? 0x80 then Some (a, t)
      else if a <? 0xE0 then match t with b :: t => Some ((a - 0xC0) * 64 + (b - 0x80), t) | _ => None end
      else if a <? 0xF0 then match t with b :: c :: t => Some (((a - 0xE0) * 64 + (b - 0x80)) * 64 + (c - 0x80), t) | _ => None end
      else match t with b :: c :: d :: t => Some ((((a - 0xF0) * 64 + (b - 0x80)) * 64 + (c - 0x80)) * 64 + (d - 0x80), t) | _ => None end
  | [] => None
  end.
(** Up to the closing quote; [fuel] bounds the characters *)
Fixpoint read_quoted (fuel : nat) (s : str) : option (str * str) :=
  match fuel with
  | O => None
  | S fuel' =>
      match s with
      | [] => None
      | c :: t =>
          if c =? 34 then Some ([], t)
          else
            match (if c =? 92 then read_escape t else read_char s) with
            | Some (r, rest) => match read_quoted fuel' rest with Some (l, rest) => Some (r :: l, rest) | None => None end
            | None => None
            end
      end
  end.
(** The codepoints of a cluster in hexadecimal, with - between them *)
Fixpoint read_codepoints (acc : N) (s : str) : option (list N) :=
  match s with
  | [] => Some [acc]
  | c :: t =>
      if c =? 45 then match read_codepoints 0 t with Some l => Some (acc :: l) | None => None end
      else match hexa_digit c with Some d => read_codepoints (acc * 16 + d) t | None => None end
  end.
(** A label: the cluster in quotes; if it has more than one codepoint, their numbers follow, else
    there may be a name.  The numbers have to agree. *)
Definition read_label (s : str) : option str :=
  match s with
  | 34 :: t =>
      match read_quoted (S (List.length t)) t with
      | Some (cl, rest) =>
          match cl, rest with
          | [_], [] => Some cl
          | [_], 32 :: _ => Some cl
          | _ :: _ :: _, 32 :: numbers =>
              match read_codepoints 0 numbers with
              | Some l => if list_eq_dec N.eq_dec l cl then Some cl else None
              | None => None
              end
          | _, _ => None
          end
      | None => None
      end
  | _ => None
  end.

(** Up to the first c, which is dropped *)
Fixpoint upto (c : N) (s : str) : option (str * str) :=
  match s with
  | [] => None
  | d :: t => if d =? c then Some ([], t) else match upto c t with Some (a, b) => Some (d :: a, b) | None => None end
  end.
Fixpoint skip_blanks (s : str) : str := match s with 32 :: t => skip_blanks t | _ => s end.

(** A row of a table: the number and the cluster *)
Definition read_row (line : str) : option (N * str) :=
  match line with
  | 32 :: 32 :: 32 :: 32 :: d :: t =>
      if is_digit d then
        match upto 44 (d :: t) with
        | Some (w, rest) =>
            match literal w, skip_blanks rest with
            | Some n, 47 :: 47 :: 32 :: label => match read_label label with Some c => Some (n, c) | None => None end
            | _, _ => None
            end
        | None => None
        end
      else None
  | _ => None
  end.
(** The comment of a record: its offset, the name in the index file, and the label's cluster *)
Definition read_record (line : str) : option (N * str * str) :=
  match line with
  | 32 :: 32 :: 32 :: 32 :: 47 :: 47 :: 32 :: 91 :: t =>
      match upto 93 t with
      | Some (w, 58 :: 32 :: rest) =>
          match literal w, upto 32 rest with
          | Some n, Some (h, label) =>
              match read_label label with Some c => Some (n, h, c) | None => None end
          | _, _ => None
          end
      | _ => None
      end
  | _ => None
  end.

(** The lines of a text *)
Fixpoint lines (s : str) : list str :=
  match s with
  | [] => [[]]
  | c :: t =>
      if c =? 10 then [] :: lines t
      else match lines t with l :: more => (c :: l) :: more | [] => [[c]] end
  end.
Definition found {A} (f : str -> option A) (text : str) : list A :=
  flat_map (fun l => match f l with Some a => [a] | None => [] end) (lines text).
Definition rows (text : str) : list (N * str) := found read_row text.
Definition records (text : str) : list (N * str * str) := found read_record text.
