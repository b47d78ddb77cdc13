(** * Model of renderTemplate: codegen/lib/templates.go:37-47

    The part of Go's text/template that the templates of this program use: texts, actions
    with one command, [range] and [with] without [else], trimming of white space, fields, methods
    without arguments, variables, and the functions len, index, printf (%X, %d, %s) and
    ToLower.  Everything else is [Panic] here, as errors of Parse and Execute are in renderTemplate
    (lines 40, 43-45).  A variable that is not defined is an error when it is used (Go
    reports it when the template is read). *)
From Coq Require Import ZArith String Ascii.
From Verif Require Import Prim Str FontDefs Codegen CodegenText Render Config.
Local Open Scope N_scope.
Local Open Scope list_scope.
Local Notation length := List.length.

(** ** Values *)
Inductive value :=
| Str (s : str)
| Num (z : Z)
| Slice (elements : list value) (methods : list (str * value))
| Struct (fields : list (str * value))
| Map (entries : list (value * value)) (zero : value).

Definition str_eqb (a b : str) : bool := if list_eq_dec N.eq_dec a b then true else false.

(** Equality of map keys: strings, numbers, structs of them *)
Fixpoint value_eqb (a b : value) : bool :=
  match a, b with
  | Str s, Str t => str_eqb s t
  | Num y, Num z => (y =? z)%Z
  | Struct f, Struct g =>
      (fix fields f g := match f, g with
       | [], [] => true
       | (n, v) :: f', (m, w) :: g' => str_eqb n m && value_eqb v w && fields f' g'
       | _, _ => false
       end) f g
  | _, _ => false
  end.

Fixpoint lookup {A} (name : str) (l : list (str * A)) : res A :=
  match l with
  | [] => Panic
  | (n, v) :: t => if str_eqb n name then Ret v else lookup name t
  end.

(** ** Lexer *)
Inductive token :=
| TText (s : str) | TOpen | TClose | TSpace | TDeclare | TComma
| TField (name : str) | TVar (name : str) | TWord (name : str) | TString (s : str).

Definition is_space (c : N) : bool := (c =? 32) || (c =? 9) || (c =? 13) || (c =? 10).
Fixpoint trim_left (s : str) : str :=
  match s with c :: t => if is_space c then trim_left t else s | [] => [] end.
Definition is_alnum (c : N) : bool :=
  (c =? 95) || ((48 <=? c) && (c <=? 57)) || ((65 <=? c) && (c <=? 90)) || ((97 <=? c) && (c <=? 122)).
Fixpoint take_name (s : str) : str * str :=
  match s with
  | c :: t => if is_alnum c then let '(n, rest) := take_name t in (c :: n, rest) else ([], s)
  | [] => ([], [])
  end.
(** What may follow a name: a space, one of [.,|:()], or the end of the action *)
Definition at_end (s : str) : bool :=
  match s with
  | [] => true
  | c :: t => is_space c || existsb (N.eqb c) [46; 44; 124; 58; 40; 41]
              || match t with d :: _ => (c =? 125) && (d =? 125) | [] => false end
  end.
(** The rest of a quoted string without escapes *)
Fixpoint take_string (s : str) : res (str * str) :=
  match s with
  | [] => Panic
  | c :: t => if c =? 34 then Ret ([], t)
              else if (c =? 92) || (c =? 10) then Panic
              else '(v, rest) <- take_string t ;; Ret (c :: v, rest)
  end.
Definition text_token (reversed : str) : list token :=
  match reversed with [] => [] | _ => [TText (rev reversed)] end.

(** [inside] says whether s starts inside of an action; [text] is the text before it,
    last byte first *)
Fixpoint lex (fuel : nat) (inside : bool) (s text : str) : res (list token) :=
  match fuel with
  | O => Panic
  | S fuel' =>
      if negb inside then
        match s with
        | [] => Ret (text_token text)
        | 123 :: 123 :: t =>
            match t with
            | 47 :: 42 :: _ => Panic
            | _ =>
                let '(text, t) :=
                  match t with
                  | 45 :: c :: t' => if is_space c then (trim_left text, t') else (text, t)
                  | _ => (text, t)
                  end in
                more <- lex fuel' true t [] ;; Ret (text_token text ++ TOpen :: more)
            end
        | c :: t => lex fuel' false t (c :: text)
        end
      else
        let name k t :=
          let '(n, rest) := take_name t in
          if at_end rest then more <- lex fuel' true rest [] ;; Ret (k n :: more) else Panic in
        match s with
        | [] => Panic
        | 125 :: 125 :: t => more <- lex fuel' false t [] ;; Ret (TClose :: more)
        | c :: t =>
            if is_space c then
              match t with
              | 45 :: 125 :: 125 :: t' => more <- lex fuel' false (trim_left t') [] ;; Ret (TClose :: more)
              | _ => more <- lex fuel' true t [] ;; Ret (TSpace :: more)
              end
            else if c =? 34 then '(v, rest) <- take_string t ;; more <- lex fuel' true rest [] ;; Ret (TString v :: more)
            else if c =? 44 then more <- lex fuel' true t [] ;; Ret (TComma :: more)
            else if c =? 46 then name TField t
            else if c =? 36 then name TVar t
            else if c =? 58 then
              match t with
              | 61 :: t' => more <- lex fuel' true t' [] ;; Ret (TDeclare :: more)
              | _ => Panic
              end
            else if is_alnum c && negb ((48 <=? c) && (c <=? 57)) then name TWord s
            else Panic
        end
  end.

(** ** Parser *)
Inductive operand := OField (path : list str) | OVar (name : str) (path : list str) | OString (s : str) | OFunc (name : str).
Inductive node :=
| NText (s : str)
| NShow (c : list operand)
| NRange (vars : list str) (c : list operand) (body : list node)
| NWith (vars : list str) (c : list operand) (body : list node).

Fixpoint skip_spaces (l : list token) : list token :=
  match l with TSpace :: t => skip_spaces t | _ => l end.
Fixpoint take_path (l : list token) : list str * list token :=
  match l with
  | TField f :: t => match f with [] => ([], l) | _ => let '(p, rest) := take_path t in (f :: p, rest) end
  | _ => ([], l)
  end.
(** Operands separated by spaces, up to the end of the action *)
Fixpoint take_command (fuel : nat) (l : list token) : res (list operand * list token) :=
  match fuel with
  | O => Panic
  | S fuel' =>
      match skip_spaces l with
      | TClose :: rest => Ret ([], rest)
      | l =>
          '(o, l) <- match l with
                     | TField f :: t =>
                         match f with
                         | [] => Ret (OField [], t)
                         | _ => let '(p, t) := take_path t in Ret (OField (f :: p), t)
                         end
                     | TVar v :: t => let '(p, t) := take_path t in Ret (OVar v p, t)
                     | TString s :: t => Ret (OString s, t)
                     | TWord w :: t => Ret (OFunc w, t)
                     | _ => Panic
                     end ;;
          match l with
          | TSpace :: _ | TClose :: _ => '(more, rest) <- take_command fuel' l ;; Ret (o :: more, rest)
          | _ => Panic
          end
      end
  end.
(** [$x :=], or [$x, $y :=] *)
Definition take_vars (l : list token) : list str * list token :=
  match skip_spaces l with
  | TVar x :: t =>
      match skip_spaces t with
      | TDeclare :: rest => ([x], rest)
      | TComma :: t =>
          match skip_spaces t with
          | TVar y :: t => match skip_spaces t with TDeclare :: rest => ([x; y], rest) | _ => ([], l) end
          | _ => ([], l)
          end
      | _ => ([], l)
      end
  | _ => ([], l)
  end.

(** Nodes up to the end (false) or to [{{end}}] (true) *)
Fixpoint parse (fuel : nat) (l : list token) : res (list node * bool * list token) :=
  match fuel with
  | O => Panic
  | S fuel' =>
      let block (k : list str -> list operand -> list node -> node) max t :=
        let '(vars, t) := take_vars t in
        if (max <? length vars)%nat then Panic
        else
          '(c, t) <- take_command (S (length t)) t ;;
          '(body, ended, t) <- parse fuel' t ;;
          if negb ended then Panic
          else '(more, ended, rest) <- parse fuel' t ;; Ret (k vars c body :: more, ended, rest) in
      match l with
      | [] => Ret ([], false, [])
      | TText s :: t => '(more, ended, rest) <- parse fuel' t ;; Ret (NText s :: more, ended, rest)
      | TOpen :: t =>
          match skip_spaces t with
          | TWord w :: t' =>
              if str_eqb w (lit "end") then
                match skip_spaces t' with TClose :: rest => Ret ([], true, rest) | _ => Panic end
              else if str_eqb w (lit "range") then block NRange 2%nat t'
              else if str_eqb w (lit "with") then block NWith 1%nat t'
              else if existsb (str_eqb w) (map lit ["if"; "else"; "define"; "template"; "block"; "nil"; "true"; "false"]%string) then Panic
              else
                '(c, t) <- take_command (S (length t)) t ;;
                '(more, ended, rest) <- parse fuel' t ;; Ret (NShow c :: more, ended, rest)
          | _ =>
              '(c, t) <- take_command (S (length t)) t ;;
              '(more, ended, rest) <- parse fuel' t ;; Ret (NShow c :: more, ended, rest)
          end
      | _ => Panic
      end
  end.

Definition parse_template (text : str) : res (list node) :=
  l <- lex (S (length text)) false text [] ;;
  '(nodes, ended, _) <- parse (S (length l)) l ;;
  if ended then Panic else Ret nodes.

(** ** Execution *)
Fixpoint get_path (path : list str) (v : value) : res value :=
  match path with
  | [] => Ret v
  | f :: more =>
      v <- match v with
           | Struct fields => lookup f fields
           | Slice _ methods => lookup f methods
           | _ => Panic
           end ;;
      get_path more v
  end.
Definition eval_operand (env : list (str * value)) (dot : value) (o : operand) : res value :=
  match o with
  | OField path => get_path path dot
  | OVar x path => v <- lookup x env ;; get_path path v
  | OString s => Ret (Str s)
  | OFunc _ => Panic
  end.

(** fmt.Sprintf *)
Definition fmt_hex (z : Z) : str := if (z <? 0)%Z then 45 :: fmt_X (Z.to_N (- z)) else fmt_X (Z.to_N z).
Fixpoint sprintf (format : str) (args : list value) : res str :=
  match format with
  | [] => match args with [] => Ret [] | _ => Panic end
  | 37 :: verb :: t =>
      match args with
      | v :: args =>
          s <- match v with
               | Num z => if verb =? 88 then Ret (fmt_hex z) else if verb =? 100 then Ret (fmt_int z) else Panic
               | Str s => if verb =? 115 then Ret s else Panic
               | _ => Panic
               end ;;
          more <- sprintf t args ;; Ret (s ++ more)
      | [] => Panic
      end
  | c :: t => if c =? 37 then Panic else more <- sprintf t args ;; Ret (c :: more)
  end.

Definition call (f : str) (args : list value) : res value :=
  if str_eqb f (lit "len") then
    match args with
    | [Str s] => Ret (Num (Z.of_nat (length s)))
    | [Slice l _] => Ret (Num (Z.of_nat (length l)))
    | [Map l _] => Ret (Num (Z.of_nat (length l)))
    | _ => Panic
    end
  else if str_eqb f (lit "index") then
    match args with
    | [Map l zero; k] => Ret (match find (fun e => value_eqb (fst e) k) l with Some (_, v) => v | None => zero end)
    | _ => Panic
    end
  else if str_eqb f (lit "printf") then
    match args with Str format :: args => s <- sprintf format args ;; Ret (Str s) | _ => Panic end
  else if str_eqb f (lit "ToLower") then
    match args with [Str s] => Ret (Str (to_lower s)) | _ => Panic end
  else Panic.

Fixpoint eval_all (env : list (str * value)) (dot : value) (l : list operand) : res (list value) :=
  match l with
  | [] => Ret []
  | o :: t => v <- eval_operand env dot o ;; vs <- eval_all env dot t ;; Ret (v :: vs)
  end.
Definition eval (env : list (str * value)) (dot : value) (c : list operand) : res value :=
  match c with
  | OFunc f :: args => vs <- eval_all env dot args ;; call f vs
  | [o] => eval_operand env dot o
  | _ => Panic
  end.

(** How a value is written; structs, slices and maps are not needed *)
Definition print (v : value) : res str :=
  match v with Str s => Ret s | Num z => Ret (fmt_int z) | _ => Panic end.
(** What counts as true for [with] *)
Definition truth (v : value) : bool :=
  match v with
  | Str [] | Num 0%Z | Slice [] _ | Map [] _ => false
  | _ => true
  end.

(** The variables of [range]: the element, or its index and itself *)
Definition range_vars (vars : list str) (i : nat) (v : value) : list (str * value) :=
  match vars with
  | [x] => [(x, v)]
  | [x; y] => [(y, v); (x, Num (Z.of_nat i))]
  | _ => []
  end.

Fixpoint exec (n : node) (env : list (str * value)) (dot : value) {struct n} : res str :=
  let exec_all := fix exec_all (ns : list node) (env : list (str * value)) (dot : value) {struct ns} : res str :=
    match ns with
    | [] => Ret []
    | n :: t => a <- exec n env dot ;; b <- exec_all t env dot ;; Ret (a ++ b)
    end in
  match n with
  | NText s => Ret s
  | NShow c => v <- eval env dot c ;; print v
  | NRange vars c body =>
      v <- eval env dot c ;;
      match v with
      | Slice l _ =>
          (fix loop (i : nat) (l : list value) {struct l} : res str :=
             match l with
             | [] => Ret []
             | x :: t => a <- exec_all body (range_vars vars i x ++ env) x ;; b <- loop (S i) t ;; Ret (a ++ b)
             end) 0%nat l
      | _ => Panic
      end
  | NWith vars c body =>
      v <- eval env dot c ;;
      if truth v then exec_all body (range_vars vars 0 v ++ env) v else Ret []
  end.
Fixpoint exec_all (ns : list node) (env : list (str * value)) (dot : value) : res str :=
  match ns with
  | [] => Ret []
  | n :: t => a <- exec n env dot ;; b <- exec_all t env dot ;; Ret (a ++ b)
  end.

(** templates.go:38-47: renderTemplate; [$] is the context *)
Definition render (text : str) (context : value) : res str :=
  nodes <- parse_template text ;; exec_all nodes [([], context)] context.
Definition render_template (text : string) (context : value) : res str := render (lit text) context.

(** ** Contexts *)

(** codegen/lib/ublock.go:7-12: UBlock *)
Definition ublock_value (k : ublock) : value :=
  Struct [(lit "Low", Num (Z.of_N (fst k))); (lit "High", Num (Z.of_N (snd k))); (lit "Name", Str (block_name k))].
(** codegen/lib/blockindex.go:13-20: BlockIndex, with the methods that take no arguments *)
Definition entry_value (e : entry) : value :=
  Struct [(lit "M3Hash", Num (Z.of_N (e_hash e))); (lit "Cluster", Str (flat_map utf8_rune (e_cluster e)));
          (lit "DataOffset", Num (Z.of_N (e_offset e)))].
Definition index_value (printable : N -> bool) (b : block_index) : value :=
  Slice (map entry_value b)
    [(lit "RustCodeForClusterHashes", Str (code_for_hashes printable b));
     (lit "RustCodeForOffsets", Str (code_for_offsets printable b));
     (lit "ClusterLengthList", Slice (map (fun n => Num (Z.of_N n)) (cluster_length_list b)) [])].
(** codegen/lib/glyphset.go:12-16: GlyphSet *)
Definition glyph_set_value (printable : N -> bool) (g : glyph_set) (code : str) : value :=
  Struct [(lit "Code", Str code); (lit "DataLen", Num (Z.of_N (gs_len g)));
          (lit "Index", Map (map (fun kb => (ublock_value (fst kb), index_value printable (snd kb))) (gs_index g))
                            (index_value printable []));
          (lit "IndexKeys", Slice (map (fun kb => ublock_value (fst kb)) (index_keys g)) [])].
(** codegen/lib/fontspec.go:7-20: FontSpec, without the fields Sprites, CSList, AliasList, RustOut *)
Definition font_value (f : fontspec) (legal : str) : value :=
  Struct [(lit "Name", Str (lit (fs_name f))); (lit "Size", Num (fs_size f)); (lit "Cols", Num (fs_cols f));
          (lit "Gutter", Num (fs_gutter f)); (lit "Border", Num (fs_border f)); (lit "Legal", Str legal);
          (lit "GlyphTrim", Str (lit (fs_glyph_trim f))); (lit "M3Seed", Num (Z.of_N (fs_seed f)))].
(** templates.go:31-35, 19-22: the context of a font file *)
Definition font_file_context (printable : N -> bool) (f : fontspec) (legal : str) (g : glyph_set) (code : str) (m3Seed : N) : value :=
  Struct [(lit "Font", font_value f legal); (lit "GS", glyph_set_value printable g code); (lit "M3Seed", Num (Z.of_N m3Seed))].
(** templates.go:25-28, 13-16: the context of the usage message; of FontSpec only RustOut *)
Definition usage_context (confirm : str) (jobs : list font_job) : value :=
  Struct [(lit "Confirm", Str confirm);
          (lit "Fonts", Slice (map (fun j => Struct [(lit "RustOut", Str (fj_out j))]) jobs) [])].
