(** * Proofs: what the parts of a template do, whatever the texts around them *)
From Coq Require Import ZArith String Ascii.
From Verif Require Import Prim Str FontDefs Codegen CodegenText Render Config Template SpecTemplate.
Local Open Scope N_scope.
Local Open Scope list_scope.
Local Notation length := List.length.

Lemma plain_tail c s : plain (c :: s) -> plain s.
Proof. intros H a b E. apply (H (c :: a) b). cbn [app]. f_equal. exact E. Qed.
Lemma plain_brace s : plain (123 :: s) -> exists d t, s = d :: t /\ d <> 123.
Proof.
  intros H. destruct s as [|d t]; [exfalso; apply (H [] []); reflexivity|]. exists d, t. split; [reflexivity|].
  intros ->. apply (H [] (t ++ [123])). reflexivity.
Qed.

(** ** Reading *)
Lemma lex_char f c t text : c <> 123 -> lex (S f) false (c :: t) text = lex f false t (c :: text).
Proof.
  intros H. cbn [lex negb]. destruct c as [|p]; [reflexivity|]. do 7 (try (destruct p as [p|p|]); try reflexivity). contradiction H; reflexivity.
Qed.
Lemma lex_brace f d t text : d <> 123 -> lex (S f) false (123 :: d :: t) text = lex f false (d :: t) (123 :: text).
Proof.
  intros H. cbn [lex negb]. destruct d as [|p]; [reflexivity|]. do 7 (try (destruct p as [p|p|]); try reflexivity). contradiction H; reflexivity.
Qed.
Lemma lex_plain s : forall f t text, plain s -> (length s <= f)%nat -> 
  lex f false (s ++ t) text = lex (f - length s) false t (rev s ++ text).
Proof.
  induction s as [|c s IH]; intros f t text H L; [cbn [List.length]; rewrite Nat.sub_0_r; reflexivity|].
  cbn [List.length] in L. destruct f as [|f]; [lia|]. cbn [List.length Nat.sub app rev]. rewrite <- app_assoc. change ([c] ++ text) with (c :: text).
  rewrite <- (IH f t (c :: text) (plain_tail _ _ H)) by lia.
  destruct (N.eq_dec c 123) as [->|N]; [|apply lex_char, N].
  destruct (plain_brace s H) as (d & s' & -> & Hd). apply (lex_brace _ d (s' ++ t)). exact Hd.
Qed.
Lemma lex_end s f : plain s -> (length s < f)%nat -> lex f false s [] = Ret (text_token (rev s)).
Proof.
  intros H L. rewrite <- (app_nil_r s) at 1. rewrite lex_plain by (assumption || lia). rewrite app_nil_r.
  destruct (f - length s)%nat eqn:E; [lia|]. reflexivity.
Qed.
Lemma take_name_all n c t : word n -> is_alnum c = false -> take_name (n ++ c :: t) = (n, c :: t).
Proof.
  intros H Hc. induction n as [|d n IH]; cbn [app take_name]; [rewrite Hc; reflexivity|].
  inversion H as [|? ? Hd Hn]; subst. replace (is_alnum d) with true by (symmetry; exact Hd). rewrite (IH Hn). reflexivity.
Qed.
Definition then_ (k : list token) (r : res (list token)) : res (list token) := more <- r ;; Ret (k ++ more).
Lemma open_dot f t text : lex (S f) false (123 :: 123 :: 46 :: t) text = then_ (text_token text ++ [TOpen]) (lex f true (46 :: t) []).
Proof. unfold then_. transitivity (more <- lex f true (46 :: t) [] ;; Ret (text_token text ++ TOpen :: more)); [reflexivity|].
  destruct (lex f true (46 :: t) []); [|reflexivity]. cbn [bind]. rewrite <- app_assoc. reflexivity. Qed.
Lemma open_word f c t text : is_alnum c = true -> lex (S f) false (123 :: 123 :: c :: t) text = then_ (text_token text ++ [TOpen]) (lex f true (c :: t) []).
Proof. intros H. unfold then_. transitivity (more <- lex f true (c :: t) [] ;; Ret (text_token text ++ TOpen :: more)).
  - destruct c as [|p]; [discriminate H|]. do 6 (try (destruct p as [p|p|]); try reflexivity; try discriminate H).
  - destruct (lex f true (c :: t) []); [|reflexivity]. cbn [bind]. rewrite <- app_assoc. reflexivity. Qed.
Lemma open_trim f t text : lex (S f) false (123 :: 123 :: 45 :: 32 :: t) text = then_ (text_token (trim_left text) ++ [TOpen]) (lex f true t []).
Proof. unfold then_. transitivity (more <- lex f true t [] ;; Ret (text_token (trim_left text) ++ TOpen :: more)); [reflexivity|].
  destruct (lex f true t []); [|reflexivity]. cbn [bind]. rewrite <- app_assoc. reflexivity. Qed.
Lemma lex_dot f n c t : word n -> is_alnum c = false -> at_end (c :: t) = true ->
  lex (S f) true (46 :: n ++ c :: t) [] = then_ [TField n] (lex f true (c :: t) []).
Proof.
  intros H Hc He. transitivity (let '(n, rest) := take_name (n ++ c :: t) in if at_end rest then more <- lex f true rest [] ;; Ret (TField n :: more) else Panic); [reflexivity|].
  rewrite (take_name_all n c t H Hc). cbv beta iota. rewrite He. reflexivity.
Qed.
Lemma lex_close f t : lex (S f) true (125 :: 125 :: t) [] = then_ [TClose] (lex f false t []).
Proof. reflexivity. Qed.
Lemma close_trim f t : lex (S f) true (32 :: 45 :: 125 :: 125 :: t) [] = then_ [TClose] (lex f false (trim_left t) []).
Proof. reflexivity. Qed.
Lemma lex_space f t : lex (S f) true (32 :: 46 :: t) [] = then_ [TSpace] (lex f true (46 :: t) []).
Proof. reflexivity. Qed.
Lemma lex_range f t : lex (S f) true (114 :: 97 :: 110 :: 103 :: 101 :: 32 :: t) [] = then_ [TWord (lit "range")] (lex f true (32 :: t) []).
Proof. reflexivity. Qed.
Lemma lex_end_word f t : lex (S f) true (101 :: 110 :: 100 :: 125 :: 125 :: t) [] = then_ [TWord (lit "end")] (lex f true (125 :: 125 :: t) []).
Proof. reflexivity. Qed.
Lemma then_then a b r : then_ a (then_ b r) = then_ (a ++ b) r.
Proof. destruct r; [|reflexivity]. cbn. rewrite <- app_assoc. reflexivity. Qed.
Lemma then_ret a b : then_ a (Ret b) = Ret (a ++ b).
Proof. reflexivity. Qed.
(** [{{.n}}] *)
Lemma lex_field f n t text : word n -> (length n + 5 + length t < f)%nat ->
  exists f', (length t < f')%nat /\
  lex f false ([123; 123; 46] ++ n ++ [125; 125] ++ t) text
  = then_ (text_token text ++ [TOpen; TField n; TClose]) (lex f' false t []).
Proof.
  intros H L. do 3 (destruct f as [|f]; [lia|]). exists f. split; [lia|].
  cbn [app]. rewrite open_dot, (lex_dot _ n 125 (125 :: t) H eq_refl eq_refl), lex_close, !then_then, <- !app_assoc. reflexivity.
Qed.

Lemma lex_merge l b : forall f, pieces_plain l -> plain b -> (length (merge_source l b) < f)%nat ->
  lex f false (merge_source l b) []
  = Ret (flat_map (fun an => text_token (rev (fst an)) ++ [TOpen; TField (snd an); TClose]) l ++ text_token (rev b)).
Proof.
  induction l as [|[a n] l IH]; intros f Hl Hb L; [exact (lex_end b f Hb L)|].
  inversion Hl as [|? ? [Ha Hn] Hl']; subst. cbn [fst snd] in *. cbn [merge_source] in *.
  rewrite !app_length in L. cbn [List.length] in L.
  rewrite lex_plain by (assumption || lia). rewrite app_nil_r.
  destruct (lex_field (f - length a) n (merge_source l b) (rev a) Hn) as (f' & L' & ->); [lia|].
  rewrite (IH f' Hl' Hb L'), then_ret. cbn [flat_map fst snd]. rewrite <- !app_assoc. reflexivity.
Qed.

(** ** Parsing *)
Definition text_nodes (s : str) : list node := match s with [] => [] | _ => [NText s] end.
Definition path_of (n : str) : list str := match n with [] => [] | _ => [n] end.
Definition show (n : str) : node := NShow [OField (path_of n)].

Lemma text_token_rev s : text_token (rev s) = match s with [] => [] | _ => [TText s] end.
Proof.
  destruct s as [|c s]; [reflexivity|]. unfold text_token. destruct (rev (c :: s)) eqn:E.
  - exfalso. apply (f_equal (@length N)) in E. rewrite rev_length in E. discriminate E.
  - rewrite <- E, rev_involutive. reflexivity.
Qed.
Lemma parse_text f s l : (length (text_token (rev s) ++ l) < f)%nat -> exists f', (length l < f')%nat /\ (f' <= f)%nat /\
  parse f (text_token (rev s) ++ l) = ('(more, ended, rest) <- parse f' l ;; Ret (text_nodes s ++ more, ended, rest)).
Proof.
  rewrite text_token_rev. destruct s as [|c s]; intros L; cbn [app List.length] in L.
  - exists f. split; [exact L|]. split; [lia|]. cbn [app text_nodes]. destruct (parse f l) as [[[? ?] ?]|]; reflexivity.
  - destruct f as [|f]; [lia|]. exists f. split; [lia|]. split; [lia|]. reflexivity.
Qed.
Lemma parse_show f n l : parse (S f) (TOpen :: TField n :: TClose :: l)
  = ('(more, ended, rest) <- parse f l ;; Ret (show n :: more, ended, rest)).
Proof. cbn [parse skip_spaces List.length take_command]. destruct n as [|c n]; cbn [bind]; reflexivity. Qed.

Lemma command_field f c n l : take_command (S (S f)) (TSpace :: TField (c :: n) :: TClose :: l) = Ret ([OField [c :: n]], l).
Proof. reflexivity. Qed.
Lemma parse_range f c n l : parse (S f) (TOpen :: TWord (lit "range") :: TSpace :: TField (c :: n) :: TClose :: l)
  = ('(body, ended, t) <- parse f l ;;
     if negb ended then Panic else '(more, ended, rest) <- parse f t ;; Ret (NRange [] [OField [c :: n]] body :: more, ended, rest)).
Proof.
  transitivity ('(c, t) <- take_command (S (S (S (S (length l))))) (TSpace :: TField (c :: n) :: TClose :: l) ;;
    '(body, ended, t) <- parse f t ;;
    if negb ended then Panic else '(more, ended, rest) <- parse f t ;; Ret (NRange [] c body :: more, ended, rest)); [reflexivity|].
  rewrite command_field. reflexivity.
Qed.
Lemma parse_end f l : parse (S f) (TOpen :: TWord (lit "end") :: TClose :: l) = Ret ([], true, l).
Proof. reflexivity. Qed.

Lemma parse_merge l b : forall f,
  let tokens := flat_map (fun an => text_token (rev (fst an)) ++ [TOpen; TField (snd an); TClose]) l ++ text_token (rev b) in
  (length tokens < f)%nat ->
  parse f tokens = Ret (flat_map (fun an => text_nodes (fst an) ++ [show (snd an)]) l ++ text_nodes b, false, []).
Proof.
  induction l as [|[a n] l IH]; intros f tokens L; subst tokens; cbn [flat_map fst snd] in *.
  - cbn [app] in L |- *. rewrite <- (app_nil_r (text_token (rev b))) in L |- *. destruct (parse_text f b [] L) as (f' & L' & _ & ->).
    destruct f' as [|f']; [cbn [List.length] in L'; lia|]. cbn [parse bind]. rewrite app_nil_r. reflexivity.
  - rewrite <- !app_assoc in L |- *. destruct (parse_text f a _ L) as (f' & L' & _ & ->).
    cbn [app List.length] in L'. destruct f' as [|f']; [lia|]. cbn [app]. rewrite parse_show, IH by lia.
    cbn [bind]. rewrite <- !app_assoc. reflexivity.
Qed.

(** ** Execution *)
Lemma exec_text_nodes s l env dot : exec_all (text_nodes s ++ l) env dot = (r <- exec_all l env dot ;; Ret (s ++ r)).
Proof. destruct s as [|c s]; cbn [text_nodes app exec_all exec bind]; destruct (exec_all l env dot); reflexivity. Qed.
Lemma exec_show n l env dot : exec_all (show n :: l) env dot
  = (v <- get_path (path_of n) dot ;; s <- print v ;; r <- exec_all l env dot ;; Ret (s ++ r)).
Proof.
  cbn [exec_all]. unfold show at 1. cbn [exec eval eval_operand]. destruct (get_path (path_of n) dot) as [v|]; [|reflexivity]. cbn [bind]. destruct (print v); reflexivity.
Qed.
Lemma lookup_said name fields v : said fields name v -> lookup name fields = Ret v.
Proof.
  intros (before & after & -> & N). induction before as [|[m w] before IH]; cbn [app lookup].
  - unfold str_eqb. destruct (list_eq_dec N.eq_dec name name) as [_|C]; [reflexivity|contradiction].
  - unfold str_eqb. destruct (list_eq_dec N.eq_dec m name) as [->|_]; [exfalso; apply N; left; reflexivity|].
    apply IH. intros I. apply N. right. exact I.
Qed.
Lemma print_shown v s : writes v s -> print v = Ret s.
Proof. destruct 1; reflexivity. Qed.

(** Texts with the values of fields between them *)
Lemma merge l b fields out : Forall (fun an => snd an <> []) l -> pieces_plain l -> plain b ->
  merged fields l b out -> render (merge_source l b) (Struct fields) = Ret out.
Proof.
  intros Hne Hl Hb Hm. unfold render, parse_template. rewrite lex_merge by (assumption || lia). cbn [bind].
  rewrite parse_merge by lia. cbn [bind]. generalize ([([] : str, Struct fields)]) as env. intros env.
  induction Hm as [|a n l b v s out Hv Hs Hm IH].
  - cbn [flat_map app]. rewrite <- (app_nil_r (text_nodes b)), exec_text_nodes. cbn [exec_all bind]. rewrite app_nil_r. reflexivity.
  - cbn [flat_map fst snd]. rewrite <- !app_assoc, exec_text_nodes. cbn [app]. rewrite exec_show.
    inversion Hne as [|? ? Hn Hne']; inversion Hl as [|? ? _ Hl']; subst. cbn [snd] in Hn. destruct n as [|c n]; [contradiction|].
    cbn [path_of get_path]. rewrite (lookup_said _ _ _ Hv). cbn [bind]. rewrite (print_shown _ _ Hs). cbn [bind].
    rewrite (IH Hne' Hl' Hb). reflexivity.
Qed.

(** ** Trimming *)
Lemma trim_left_spaces w s : Forall (fun c => white c = true) w -> (forall c t, s = c :: t -> white c = false) -> trim_left (w ++ s) = s.
Proof.
  intros Hw Hs. induction Hw as [|c w Hc _ IH]; cbn [app trim_left].
  - destruct s as [|c t]; [reflexivity|]. cbn [trim_left]. replace (is_space c) with false; [reflexivity|]. symmetry. exact (Hs c t eq_refl).
  - replace (is_space c) with true by (symmetry; exact Hc). exact IH.
Qed.
Lemma trimmed a w1 name w2 b fields v s : plain (a ++ w1) -> plain b -> word name -> name <> [] ->
  Forall (fun c => white c = true) w1 -> Forall (fun c => white c = true) w2 ->
  (forall t c, a = t ++ [c] -> white c = false) -> (forall c t, b = c :: t -> white c = false) ->
  said fields name v -> writes v s ->
  render (a ++ w1 ++ [123; 123; 45; 32; 46] ++ name ++ [32; 45; 125; 125] ++ w2 ++ b) (Struct fields) = Ret (a ++ s ++ b).
Proof.
  intros Hp Hb Hn Hne Hw1 Hw2 Ha Hb' Hv Hs. unfold render, parse_template.
  set (text := a ++ w1 ++ _). assert (L : (length text = length (a ++ w1) + 9 + length name + length w2 + length b)%nat).
  { unfold text. rewrite !app_length. cbn [List.length]. lia. }
  assert (E : lex (S (length text)) false text [] = Ret (text_token (rev a) ++ [TOpen; TField name; TClose] ++ text_token (rev b))).
  { rewrite L. unfold text. rewrite app_assoc, lex_plain by (assumption || lia). rewrite app_nil_r.
    replace (S (length (a ++ w1) + 9 + length name + length w2 + length b) - length (a ++ w1))%nat
      with (S (S (S (7 + length name + length w2 + length b)))) by lia.
    cbn [app]. rewrite open_trim, (lex_dot _ name 32 (45 :: 125 :: 125 :: w2 ++ b) Hn eq_refl eq_refl), close_trim, (trim_left_spaces w2 b Hw2 Hb').
    rewrite lex_end by (assumption || lia). rewrite !then_then, then_ret.
    rewrite rev_app_distr, trim_left_spaces; [rewrite <- !app_assoc; reflexivity| |].
    - apply Forall_rev, Hw1.
    - intros c t Er. apply (Ha (rev t) c). rewrite <- (rev_involutive a), Er. reflexivity. }
  rewrite E. cbn [bind].
  pose proof (parse_merge [(a, name)] b (S (length (text_token (rev a) ++ [TOpen; TField name; TClose] ++ text_token (rev b))))) as P.
  cbv zeta in P. cbn [flat_map fst snd] in P. rewrite app_nil_r, <- !app_assoc in P. rewrite P by lia. clear P. cbn [bind].
  rewrite exec_text_nodes. cbn [app]. rewrite exec_show. destruct name as [|c name]; [contradiction|].
  cbn [path_of get_path]. rewrite (lookup_said _ _ _ Hv). cbn [bind]. rewrite (print_shown _ _ Hs). cbn [bind].
  rewrite <- (app_nil_r (text_nodes b)), exec_text_nodes. cbn [exec_all bind]. rewrite app_nil_r. reflexivity.
Qed.

(** ** Repetition: [a{{range .n}}b{{.}}c{{end}}d] *)
Lemma repeated a name b c d fields l methods outs : plain a -> plain b -> plain c -> plain d -> word name -> name <> [] ->
  said fields name (Slice l methods) -> Forall2 writes l outs ->
  render (a ++ lit "{{range ." ++ name ++ lit "}}" ++ b ++ lit "{{.}}" ++ c ++ lit "{{end}}" ++ d) (Struct fields)
  = Ret (a ++ flat_map (fun s => b ++ s ++ c) outs ++ d).
Proof.
  intros Ha Hb Hc Hd Hn Hne Hv Hl. unfold render, parse_template.
  set (text := a ++ _). assert (L : (length text = length a + 23 + length name + length b + length c + length d)%nat).
  { unfold text. rewrite !app_length. cbn. lia. }
  set (toks := text_token (rev a) ++ TOpen :: TWord (lit "range") :: TSpace :: TField name :: TClose ::
    text_token (rev b) ++ TOpen :: TField [] :: TClose :: text_token (rev c) ++ TOpen :: TWord (lit "end") :: TClose :: text_token (rev d)).
  assert (E : lex (S (length text)) false text [] = Ret toks).
  { rewrite L. unfold text. rewrite lex_plain by (assumption || lia). rewrite app_nil_r.
    replace (S (length a + 23 + length name + length b + length c + length d) - length a)%nat
      with (S (S (S (S (S (19 + length name + length b + length c + length d)))))) by lia.
    remember (19 + length name + length b + length c + length d)%nat as f eqn:Ef.
    change (lit "{{range .") with [123; 123; 114; 97; 110; 103; 101; 32; 46]. change (lit "}}") with [125; 125].
    cbn [app]. rewrite open_word by reflexivity. rewrite lex_range, lex_space, (lex_dot _ name 125 (125 :: b ++ lit "{{.}}" ++ c ++ lit "{{end}}" ++ d) Hn eq_refl eq_refl), lex_close.
    rewrite lex_plain by (assumption || lia). rewrite app_nil_r.
    destruct (lex_field (f - length b) [] (c ++ lit "{{end}}" ++ d) (rev b)) as (f2 & L2 & E2); [constructor|rewrite !app_length; cbn [lit List.length]; cbn; lia|].
    cbn [app] in E2. change (lit "{{.}}") with [123; 123; 46; 125; 125]. cbn [app]. rewrite E2. clear E2.
    rewrite !app_length in L2. change (length (lit "{{end}}")) with 7%nat in L2.
    rewrite lex_plain by (assumption || lia). rewrite app_nil_r.
    destruct (f2 - length c)%nat as [|[|[|f3]]] eqn:E3; try lia.
    change (lit "{{end}}") with [123; 123; 101; 110; 100; 125; 125].
    cbn [app]. rewrite open_word by reflexivity. rewrite lex_end_word, lex_close, lex_end by (assumption || lia).
    rewrite !then_then, then_ret. unfold toks. rewrite <- !app_assoc. reflexivity. }
  rewrite E. cbn [bind]. unfold toks at 2.
  destruct (parse_text (S (length toks)) a _ (Nat.lt_succ_diag_r _)) as (f1 & L1 & _ & ->).
  cbn [List.length] in L1. rewrite !app_length in L1. cbn [List.length] in L1. rewrite !app_length in L1. cbn [List.length] in L1.
  destruct f1 as [|f1]; [lia|].
  destruct name as [|n0 name]; [contradiction|]. rewrite parse_range.
  destruct (parse_text f1 b (TOpen :: TField [] :: TClose :: text_token (rev c) ++ TOpen :: TWord (lit "end") :: TClose :: text_token (rev d))) as (f2 & L2 & M2 & ->).
  { rewrite !app_length. cbn [List.length]. rewrite !app_length. cbn [List.length]. lia. }
  cbn [List.length] in L2. rewrite !app_length in L2. cbn [List.length] in L2. destruct f2 as [|f2]; [lia|]. rewrite parse_show.
  destruct (parse_text f2 c (TOpen :: TWord (lit "end") :: TClose :: text_token (rev d))) as (f3 & L3 & M3 & ->).
  { rewrite !app_length. cbn [List.length]. lia. }
  cbn [List.length] in L3. destruct f3 as [|f3]; [lia|]. rewrite parse_end. cbn [bind negb]. rewrite <- (app_nil_r (text_token (rev d))).
  destruct (parse_text f1 d []) as (f4 & L4 & M4 & ->).
  { rewrite app_nil_r. lia. }
  destruct f4 as [|f4]; [lia|]. cbn [parse bind]. rewrite exec_text_nodes. cbn [exec_all].
  match goal with |- context [exec ?n ?e ?d] => set (ex := exec n e d) end.
  assert (Ex : ex = Ret (flat_map (fun s => b ++ s ++ c) outs)).
  { unfold ex. cbn [exec eval eval_operand get_path]. rewrite (lookup_said _ _ _ Hv). cbn [bind].
    match goal with |- _ ?k l = _ => generalize k end. clear - Hl.
    match goal with |- forall k, ?F k l = _ => set (loop := F) end.
    induction Hl as [|v s l outs Hs _ IH]; intros k; [reflexivity|].
    change (loop k (v :: l)) with (x <- exec_all (text_nodes b ++ show [] :: text_nodes c ++ []) [([], Struct fields)] v ;; y <- loop (S k) l ;; Ret (x ++ y)).
    rewrite (IH (S k)), exec_text_nodes, exec_show, exec_text_nodes. cbn [path_of get_path bind exec_all]. rewrite (print_shown _ _ Hs). cbn [bind].
    cbn [flat_map]. rewrite app_nil_r, <- !app_assoc. reflexivity. }
  rewrite Ex. cbn [bind]. rewrite exec_text_nodes. cbn [exec_all bind]. rewrite app_nil_r. reflexivity.
Qed.
