(** * Specification: texts with the values of fields between them *)
From Coq Require Import ZArith.
From Verif Require Import Prim Str FontDefs Render Template.
Local Open Scope N_scope.
Local Open Scope list_scope.

(** A text that can stand before an action: no two opening braces in it, nor one at its end *)
Definition plain (s : str) : Prop := forall a b, s ++ [123] <> a ++ [123; 123] ++ b.
(** Letters, digits and _ *)
Definition word (s : str) : Prop :=
  Forall (fun c => ((c =? 95) || ((48 <=? c) && (c <=? 57)) || ((65 <=? c) && (c <=? 90)) || ((97 <=? c) && (c <=? 122))) = true) s.
(** Space, tab, CR, LF *)
Definition white (c : N) : bool := (c =? 32) || (c =? 9) || (c =? 13) || (c =? 10).

(** The first field of that name *)
Definition said (fields : list (str * value)) (name : str) (v : value) : Prop :=
  exists before after, fields = before ++ (name, v) :: after /\ ~ In name (map fst before).
(** How strings and numbers are written *)
Inductive writes : value -> str -> Prop :=
| writes_string s : writes (Str s) s
| writes_number z : writes (Num z) (fmt_int z).

(** a1 [{{.n1}}] a2 [{{.n2}}] ... b *)
Fixpoint merge_source (l : list (str * str)) (b : str) : str :=
  match l with
  | [] => b
  | (a, n) :: t => a ++ [123; 123; 46] ++ n ++ [125; 125] ++ merge_source t b
  end.
Definition pieces_plain (l : list (str * str)) : Prop := Forall (fun an => plain (fst an) /\ word (snd an)) l.
(** a1 (the value of n1) a2 (the value of n2) ... b *)
Inductive merged (fields : list (str * value)) : list (str * str) -> str -> str -> Prop :=
| merged_end b : merged fields [] b b
| merged_field a n l b v s out : said fields n v -> writes v s -> merged fields l b out ->
    merged fields ((a, n) :: l) b (a ++ s ++ out).
