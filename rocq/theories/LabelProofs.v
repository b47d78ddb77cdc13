(** * Proofs: the comments of a font file can be read *)
From Coq Require Import ZArith String Ascii.
From Verif Require Import Prim Str FontDefs Codegen CodegenText SpecRust Render RenderLex SpecLabel.
Local Open Scope N_scope.
Local Open Scope list_scope.
Local Notation length := List.length.

(** ** Labels *)
Lemma read_char_utf8 c t : c < 0x110000 -> read_char (utf8_rune c ++ t) = Some (c, t).
Proof.
  intros H. unfold utf8_rune.
  destruct (N.ltb_spec c 0x80) as [L1|L1].
  { cbn [app read_char]. replace (c <? 0x80) with true by lia. reflexivity. }
  destruct (N.ltb_spec c 0x800) as [L2|L2].
  { cbn [app read_char]. pose proof (N.div_mod' c 64). pose proof (N.mod_lt c 64).
    replace (0xC0 + c / 64 <? 0x80) with false by lia. replace (0xC0 + c / 64 <? 0xE0) with true by lia. f_equal. f_equal. lia. }
  pose proof (N.div_mod' c 64) as D1. pose proof (N.mod_lt c 64 ltac:(lia)) as M1.
  pose proof (N.div_mod' (c / 64) 64) as D2. pose proof (N.mod_lt (c / 64) 64 ltac:(lia)) as M2.
  rewrite N.div_div in D2 by lia. change (64 * 64) with 4096 in D2.
  destruct (N.ltb_spec c 0x10000) as [L3|L3].
  { cbn [app read_char]. replace (0xE0 + c / 4096 <? 0x80) with false by lia. replace (0xE0 + c / 4096 <? 0xE0) with false by lia.
    replace (0xE0 + c / 4096 <? 0xF0) with true by lia. f_equal. f_equal. lia. }
  pose proof (N.div_mod' (c / 4096) 64) as D3. pose proof (N.mod_lt (c / 4096) 64 ltac:(lia)) as M3.
  rewrite N.div_div in D3 by lia. change (4096 * 64) with 262144 in D3.
  cbn [app read_char]. replace (0xF0 + c / 262144 <? 0x80) with false by lia. replace (0xF0 + c / 262144 <? 0xE0) with false by lia.
  replace (0xF0 + c / 262144 <? 0xF0) with false by lia. f_equal. f_equal. lia.
Qed.

Lemma value_app base ds es : forall acc, value base acc (ds ++ es) = value base (value base acc ds) es.
Proof. intros acc. unfold value. apply fold_left_app. Qed.
Lemma value_zeros base k : value base 0 (repeat 0 k) = 0.
Proof. induction k as [|k IH]; [reflexivity|]. cbn [repeat value fold_left] in *. exact IH. Qed.
Lemma read_hex_digits ds : Forall (fun d => d < 16) ds -> forall acc t,
  read_hex (length ds) acc (map lower_digit ds ++ t) = Some (value 16 acc ds, t).
Proof.
  intros F. induction F as [|d ds H _ IH]; intros acc t; [reflexivity|]. cbn [List.length map app read_hex].
  rewrite (hexa_lower d H). apply IH.
Qed.
Lemma digits_loop_length base fuel : 1 < base -> forall k n acc, n < base ^ N.of_nat (S k) ->
  (length (digits_loop fuel base n acc) <= S k + length acc)%nat.
Proof.
  intros Hb. induction fuel as [|fuel IH]; intros k n acc H; cbn [digits_loop]; [lia|].
  destruct (N.eqb_spec (n / base) 0) as [E|E]; [cbn [List.length]; lia|].
  destruct k as [|k].
  - exfalso. apply E. apply N.div_small. change (N.of_nat 1) with 1 in H. rewrite N.pow_1_r in H. exact H.
  - specialize (IH k (n / base) (n mod base :: acc)). cbn [List.length] in IH. 
    assert (n / base < base ^ N.of_nat (S k)) as L; [|specialize (IH L); lia].
    apply N.div_lt_upper_bound; [lia|]. rewrite <- N.pow_succ_r'. rewrite <- Nat2N.inj_succ. exact H.
Qed.
Lemma read_hex_pad k n t : n < 16 ^ N.of_nat (S k) -> read_hex (S k) 0 (zero_pad (S k) (map lower_digit (digits 16 n)) ++ t) = Some (n, t).
Proof.
  intros H. unfold zero_pad. rewrite map_length.
  set (z := (S k - length (digits 16 n))%nat). replace (repeat 48 z) with (map lower_digit (repeat 0 z)).
  2:{ generalize z. intros j. induction j as [|j IH]; [reflexivity|]. cbn [repeat map]. f_equal. exact IH. }
  rewrite <- map_app. pose proof (digits_loop_length 16 (S (N.to_nat (N.size n))) ltac:(lia) k n [] H) as L. fold (digits 16 n) in L. cbn [List.length] in L.
  replace (S k) with (length (repeat 0 z ++ digits 16 n)) at 1.
  2:{ rewrite app_length, repeat_length. unfold z. lia. }
  rewrite read_hex_digits.
  - rewrite value_app, value_zeros, digits_value by lia. reflexivity.
  - apply Forall_app. split; [|apply digits_small; lia]. apply Forall_forall. intros x I. apply repeat_spec in I. lia.
Qed.

Lemma read_quote_rune printable c t fuel : c < 0x110000 ->
  read_quoted (S fuel) (quote_rune printable c ++ t)
  = match read_quoted fuel t with Some (l, rest) => Some (c :: l, rest) | None => None end.
Proof.
  intros H. unfold quote_rune. destruct ((c =? 34) || (c =? 92)) eqn:E0.
  { cbn [app]. cbn [read_quoted N.eqb Pos.eqb read_escape]. apply orb_prop in E0.
    destruct E0 as [E0|E0]; apply N.eqb_eq in E0; subst c; reflexivity. }
  apply orb_false_elim in E0. destruct E0 as [Q1 Q2].
  destruct (printable c).
  { assert (B : exists b r, utf8_rune c = b :: r /\ (b =? 34) = false /\ (b =? 92) = false).
    { unfold utf8_rune. destruct (c <? 0x80); [|destruct (c <? 0x800); [|destruct (c <? 0x10000)]]; do 2 eexists; (split; [reflexivity|]);
        [split; assumption| | |]; split; apply N.eqb_neq; intros E; match type of E with ?x + ?y = _ => remember y; lia end. }
    destruct B as (b & r & B & B1 & B2). pose proof (read_char_utf8 c t H) as R. rewrite B in R |- *. cbn [app] in R |- *.
    cbn [read_quoted]. rewrite B1, B2, R. reflexivity. }
  destruct (N.eqb_spec c 7) as [->|]; [reflexivity|]. destruct (N.eqb_spec c 8) as [->|]; [reflexivity|].
  destruct (N.eqb_spec c 12) as [->|]; [reflexivity|]. destruct (N.eqb_spec c 10) as [->|]; [reflexivity|].
  destruct (N.eqb_spec c 13) as [->|]; [reflexivity|]. destruct (N.eqb_spec c 9) as [->|]; [reflexivity|].
  destruct (N.eqb_spec c 11) as [->|]; [reflexivity|].
  destruct (N.ltb_spec c 32) as [L1|L1].
  { rewrite <- app_assoc. change (lit "\x" ++ ?s) with (92 :: 120 :: s). cbn [read_quoted N.eqb Pos.eqb read_escape].
    rewrite (read_hex_pad 1 c t); [reflexivity|]. change (16 ^ N.of_nat 2) with 256. lia. }
  destruct (N.ltb_spec c 0x10000) as [L2|L2].
  { rewrite <- app_assoc. change (lit "\u" ++ ?s) with (92 :: 117 :: s). cbn [read_quoted N.eqb Pos.eqb read_escape].
    rewrite (read_hex_pad 3 c t); [reflexivity|]. exact L2. }
  unfold fmt_08x. rewrite <- app_assoc. change (lit "\U" ++ ?s) with (92 :: 85 :: s). cbn [read_quoted N.eqb Pos.eqb read_escape].
  rewrite (read_hex_pad 7 c t); [reflexivity|]. change (16 ^ N.of_nat 8) with 4294967296. lia.
Qed.
Lemma quote_rune_ne printable c : (1 <= length (quote_rune printable c))%nat.
Proof.
  unfold quote_rune, utf8_rune. repeat match goal with |- context [if ?b then _ else _] => destruct b end;
    try rewrite app_length; cbn [lit List.length]; lia.
Qed.
Lemma read_quoted_all printable cl rest : Forall (fun c => c < 0x110000) cl -> forall fuel, (length cl < fuel)%nat ->
  read_quoted fuel (flat_map (quote_rune printable) cl ++ 34 :: rest) = Some (cl, rest).
Proof.
  intros F. induction F as [|c cl H _ IH]; intros fuel L.
  - destruct fuel as [|fuel]; [cbn [List.length] in L; lia|]. reflexivity.
  - destruct fuel as [|fuel]; [lia|]. cbn [flat_map]. rewrite <- app_assoc, read_quote_rune by exact H.
    rewrite IH by (cbn [List.length] in L; lia). reflexivity.
Qed.

Lemma codepoints_digits ds t : Forall (fun d => d < 16) ds -> forall acc,
  read_codepoints acc (map upper_digit ds ++ t) = read_codepoints (value 16 acc ds) t.
Proof.
  intros F. induction F as [|d ds H _ IH]; intros acc; [reflexivity|]. cbn [map app read_codepoints].
  replace (upper_digit d =? 45) with false by (unfold upper_digit; destruct (N.ltb_spec d 10); lia).
  rewrite (hexa_upper d H). apply IH.
Qed.
Lemma codepoints_joined cl : cl <> [] -> read_codepoints 0 (join (lit "-") (map fmt_X cl)) = Some cl.
Proof.
  intros N. induction cl as [|c cl IH]; [contradiction|]. cbn [map join]. destruct cl as [|d cl].
  - cbn [map]. rewrite <- (app_nil_r (fmt_X c)). unfold fmt_X. rewrite codepoints_digits by (apply digits_small; lia).
    rewrite digits_value by lia. reflexivity.
  - cbn [map] in IH |- *. unfold fmt_X at 1. rewrite codepoints_digits by (apply digits_small; lia). rewrite digits_value by lia.
    change (lit "-" ++ ?s) with (45 :: s). cbn [read_codepoints N.eqb Pos.eqb]. rewrite IH by discriminate. reflexivity.
Qed.

Lemma read_label_back printable cl : cl <> [] -> Forall (fun c => c < 0x110000) cl -> read_label (label_for_cluster printable cl) = Some cl.
Proof.
  intros N F.
  assert (Q : forall rest, read_label (fmt_q printable cl ++ rest) =
    match cl, rest with
    | [_], [] => Some cl
    | [_], 32 :: _ => Some cl
    | _ :: _ :: _, 32 :: numbers =>
        match read_codepoints 0 numbers with Some l => if list_eq_dec N.eq_dec l cl then Some cl else None | None => None end
    | _, _ => None
    end).
  { intros rest. unfold fmt_q. cbn [app]. unfold read_label. rewrite <- app_assoc. cbn [app].
    rewrite read_quoted_all; [reflexivity|exact F|]. rewrite app_length. cbn [List.length].
    clear - F. induction cl as [|c cl IH]; cbn [flat_map List.length]; [lia|]. rewrite app_length. pose proof (quote_rune_ne printable c).
    inversion F; subst. specialize (IH ltac:(assumption)). lia. }
  destruct (list_eq_dec N.eq_dec cl [0xAD]) as [->|A]; [reflexivity|].
  destruct (list_eq_dec N.eq_dec cl [0xA0]) as [->|B]; [reflexivity|].
  replace (label_for_cluster printable cl) with
    (let s := fmt_q printable cl in if (1 <? length cl)%nat then s ++ lit " " ++ join (lit "-") (map fmt_X cl) else s).
  2:{ destruct cl as [|c [|d cl]]; [contradiction| |].
      - unfold label_for_cluster. destruct c as [|p]; [reflexivity|].
        do 8 (try (destruct p as [p|p|])); try reflexivity; exfalso; (apply A; reflexivity) || (apply B; reflexivity).
      - unfold label_for_cluster. destruct c as [|p]; [reflexivity|]. do 8 (try (destruct p as [p|p|])); reflexivity. }
  cbv zeta. destruct cl as [|c [|d cl]]; [contradiction| |].
  - cbn [List.length Nat.ltb Nat.leb]. rewrite <- (app_nil_r (fmt_q printable [c])). rewrite Q. reflexivity.
  - cbn [List.length Nat.ltb Nat.leb]. rewrite Q. change (lit " " ++ ?s) with (32 :: s). cbv iota beta.
    rewrite codepoints_joined by discriminate. destruct (list_eq_dec N.eq_dec (c :: d :: cl) (c :: d :: cl)); [reflexivity|contradiction].
Qed.

(** ** Lines *)
Definition rest {A} (f : str -> option A) (s : str) : list A :=
  flat_map (fun l => match f l with Some a => [a] | None => [] end) (tl (lines s)).
Definition opt_list {A} (o : option A) : list A := match o with Some a => [a] | None => [] end.

Lemma lines_ne s : lines s <> [].
Proof. destruct s as [|c s]; cbn [lines]; [discriminate|]. destruct (c =? 10); [discriminate|]. destruct (lines s); discriminate. Qed.
Lemma lines_nl a b : lines (a ++ 10 :: b) = lines a ++ lines b.
Proof.
  induction a as [|c a IH]; [reflexivity|]. cbn [app lines]. rewrite IH. destruct (c =? 10); [reflexivity|].
  pose proof (lines_ne a). destruct (lines a); [contradiction|reflexivity].
Qed.
Lemma lines_one a : one_line a = true -> lines a = [a].
Proof.
  induction a as [|c a IH]; intros H; [reflexivity|]. cbn [one_line forallb] in H. fold (one_line a) in H. apply andb_prop in H. destruct H as [Hc Ha].
  cbn [lines]. destruct (c =? 10); [discriminate Hc|]. rewrite (IH Ha). reflexivity.
Qed.
Lemma lines_tail a s : one_line a = true -> tl (lines (a ++ s)) = tl (lines s).
Proof.
  induction a as [|c a IH]; intros H; [reflexivity|]. cbn [one_line forallb] in H. fold (one_line a) in H. apply andb_prop in H. destruct H as [Hc Ha].
  cbn [app lines]. destruct (c =? 10); [discriminate Hc|]. specialize (IH Ha). destruct (lines (a ++ s)) eqn:E; [destruct (lines_ne _ E)|exact IH].
Qed.
Lemma lines_head a s : one_line a = true -> exists t, hd [] (lines (a ++ s)) = a ++ t.
Proof.
  induction a as [|c a IH]; intros H; [exists (hd [] (lines s)); reflexivity|].
  cbn [one_line forallb] in H. fold (one_line a) in H. apply andb_prop in H. destruct H as [Hc Ha].
  cbn [app lines]. destruct (c =? 10); [discriminate Hc|]. destruct (IH Ha) as (t & E).
  destruct (lines (a ++ s)) eqn:El; [destruct (lines_ne _ El)|]. exists t. cbn [hd] in *. rewrite E. reflexivity.
Qed.

Section Lines.
  Context {A : Type} (f : str -> option A).

  Lemma found_app a b : found f (a ++ nl ++ b) = found f a ++ found f b.
  Proof. unfold found, nl. cbn [app]. rewrite lines_nl. apply flat_map_app. Qed.
  Lemma found_one a b : one_line a = true -> found f (a ++ nl ++ b) = opt_list (f a) ++ found f b.
  Proof. intros H. rewrite found_app. unfold found at 1. rewrite lines_one by exact H. cbn [flat_map]. rewrite app_nil_r. reflexivity. Qed.
  Lemma rest_nl s : rest f (nl ++ s) = found f s.
  Proof. reflexivity. Qed.
  Lemma rest_line a s : one_line a = true -> rest f (a ++ s) = rest f s.
  Proof. intros H. unfold rest. rewrite lines_tail by exact H. reflexivity. Qed.
  Lemma found_rest p s : one_line p = true -> (forall t, f (p ++ t) = None) -> found f (p ++ s) = rest f s.
  Proof.
    intros Hp Hd. rewrite <- (rest_line p s Hp). unfold found, rest. destruct (lines_head p s Hp) as (t & E).
    destruct (lines (p ++ s)) eqn:El; [destruct (lines_ne _ El)|]. cbn [hd tl flat_map] in *. rewrite E, Hd. reflexivity.
  Qed.

  (** What the readers have in common *)
  Definition quiet : Prop :=
    f [] = None /\ (forall c t, c <> 32 -> f (c :: t) = None) /\
    (forall c t, is_digit c = false -> c <> 47 -> f (32 :: 32 :: 32 :: 32 :: c :: t) = None) /\
    (forall t, f (lit "    // I" ++ t) = None).
  Definition dull (p : str) : bool :=
    one_line p && match p with
    | c :: t =>
        negb (c =? 32) ||
        match t with
        | 32 :: 32 :: 32 :: d :: u => (negb (is_digit d) && negb (d =? 47)) || match u with 47 :: 32 :: 73 :: _ => d =? 47 | _ => false end
        | _ => false
        end
    | [] => false
    end.
  Lemma dull_none : quiet -> forall p t, dull p = true -> f (p ++ t) = None.
  Proof.
    intros (Q0 & Q1 & Q2 & Q3) p t H. unfold dull in H. apply andb_prop in H. destruct H as [_ H].
    destruct p as [|c p]; [discriminate H|]. destruct (N.eqb_spec c 32) as [->|Hc]; [|apply Q1, Hc]. cbn [negb orb] in H.
    destruct p as [|c1 p]; [discriminate H|].
    destruct (N.eq_dec c1 32) as [->|N1]; [|destruct c1 as [|q]; [discriminate H|]; do 6 (try (destruct q as [q|q|])); try discriminate H; contradiction N1; reflexivity].
    destruct p as [|c1 p]; [discriminate H|].
    destruct (N.eq_dec c1 32) as [->|N1]; [|destruct c1 as [|q]; [discriminate H|]; do 6 (try (destruct q as [q|q|])); try discriminate H; contradiction N1; reflexivity].
    destruct p as [|c1 p]; [discriminate H|].
    destruct (N.eq_dec c1 32) as [->|N1]; [|destruct c1 as [|q]; [discriminate H|]; do 6 (try (destruct q as [q|q|])); try discriminate H; contradiction N1; reflexivity].
    destruct p as [|d u]; [discriminate H|]. apply orb_prop in H. destruct H as [H|H].
    - apply andb_prop in H. destruct H as [Hd Hs]. apply negb_true_iff in Hd, Hs. apply N.eqb_neq in Hs. apply (Q2 d (u ++ t)); assumption.
    - destruct u as [|u1 u]; [discriminate H|].
      destruct (N.eq_dec u1 47) as [->|N1]; [|destruct u1 as [|q]; [discriminate H|]; do 6 (try (destruct q as [q|q|])); try discriminate H; contradiction N1; reflexivity].
      destruct u as [|u1 u]; [discriminate H|].
      destruct (N.eq_dec u1 32) as [->|N1]; [|destruct u1 as [|q]; [discriminate H|]; do 6 (try (destruct q as [q|q|])); try discriminate H; contradiction N1; reflexivity].
      destruct u as [|u1 u]; [discriminate H|].
      destruct (N.eq_dec u1 73) as [->|N1]; [|destruct u1 as [|q]; [discriminate H|]; do 7 (try (destruct q as [q|q|])); try discriminate H; contradiction N1; reflexivity].
      apply N.eqb_eq in H. subst d. exact (Q3 (u ++ t)).
  Qed.
  Lemma found_dull p s : quiet -> dull p = true -> found f (p ++ s) = rest f s.
  Proof.
    intros Q H. apply found_rest; [|intros t; apply dull_none; assumption]. unfold dull in H. apply andb_prop in H. apply H.
  Qed.
  Lemma found_empty s : quiet -> found f (nl ++ s) = found f s.
  Proof. intros (Q0 & _). unfold found, nl. cbn [app lines N.eqb Pos.eqb flat_map]. rewrite Q0. reflexivity. Qed.
End Lines.

Lemma quiet_row : quiet read_row.
Proof.
  split; [reflexivity|]. split; [|split].
  - intros c t H. unfold read_row. destruct c as [|p]; [reflexivity|]. do 6 (try (destruct p as [p|p|])); try reflexivity. contradiction H; reflexivity.
  - intros c t H _. cbn [read_row]. rewrite H. reflexivity.
  - reflexivity.
Qed.
Lemma quiet_record : quiet read_record.
Proof.
  split; [reflexivity|]. split; [|split].
  - intros c t H. unfold read_record. destruct c as [|p]; [reflexivity|]. do 6 (try (destruct p as [p|p|])); try reflexivity. contradiction H; reflexivity.
  - intros c t _ H. unfold read_record. destruct c as [|p]; [reflexivity|]. do 6 (try (destruct p as [p|p|])); try reflexivity. contradiction H; reflexivity.
  - reflexivity.
Qed.

Ltac skip_lines Q := repeat (first
  [ rewrite (found_empty _ _ Q) | rewrite (found_dull _ _ _ Q) by reflexivity | rewrite rest_nl
  | rewrite rest_line by (reflexivity || assumption) ]).

(** ** The parts of a file without rows *)
Section Parts.
  Context {A : Type} (f : str -> option A) (Q : quiet f).

  Lemma fmt_d_line n : one_line (fmt_d n) = true.
  Proof. apply is_word_one_line, is_word_d. Qed.
  Lemma fmt_X_line n : one_line (fmt_X n) = true.
  Proof. apply words_one_line, word_upper, digits_16. lia. Qed.
  Lemma fmt_int_line z : one_line (fmt_int z) = true.
  Proof. unfold fmt_int. destruct (z <? 0)%Z; [|apply fmt_d_line]. cbn [one_line forallb]. apply fmt_d_line. Qed.

  Lemma found_notice legal name s : found f legal = [] -> one_line name = true ->
    found f (notice_text legal name ++ s) = found f s.
  Proof.
    intros Hl Hn. unfold notice_text. rewrite <- !app_assoc. skip_lines Q. rewrite found_app, Hl. cbn [app]. skip_lines Q. reflexivity.
  Qed.
  Lemma found_head size seed s : found f (head_text size seed ++ s) = rest f s.
  Proof.
    unfold head_text. pose proof (fmt_int_line size) as H1. pose proof (fmt_d_line seed) as H2.
    generalize dependent (fmt_int size). generalize dependent (fmt_d seed). intros b Hb a Ha.
    rewrite <- !app_assoc. skip_lines Q. reflexivity.
  Qed.
  Lemma rest_arm name kb s : one_line name = true -> one_line (find_ident (fst kb)) = true -> rest f (arm_text name kb ++ s) = rest f s.
  Proof.
    destruct kb as [k b]. intros Hn Hi. cbn [fst] in Hi. unfold arm_text. destruct b as [|e b]; [reflexivity|]. generalize (e :: b). clear e b. intros b.
    pose proof (fmt_X_line (fst k)) as H1. pose proof (fmt_X_line (snd k)) as H2.
    generalize dependent (fmt_X (fst k)). intros x1 H1. generalize dependent (fmt_X (snd k)). intros x2 H2.
    rewrite <- !app_assoc. skip_lines Q.
    generalize (cluster_length_list b). intros l. induction l as [|n l IH]; cbn [flat_map app]; [skip_lines Q; reflexivity|].
    rewrite <- !app_assoc. unfold try_text at 1. pose proof (fmt_d_line n) as Hd. generalize dependent (fmt_d n). intros x Hx.
    rewrite <- !app_assoc. skip_lines Q. exact IH.
  Qed.
  Lemma rest_arms name keys s : one_line name = true -> Forall (fun kb => one_line (find_ident (fst kb)) = true) keys ->
    rest f (flat_map (arm_text name) keys ++ s) = rest f s.
  Proof.
    intros Hn H. induction H as [|kb keys Hk _ IH]; [reflexivity|]. cbn [flat_map]. rewrite <- app_assoc, rest_arm by assumption. exact IH.
  Qed.
  Lemma rest_arms_end s : rest f (arms_end_text ++ s) = found f s.
  Proof. unfold arms_end_text. rewrite <- !app_assoc. skip_lines Q. reflexivity. Qed.
  Lemma found_data n code s : found f (data_text n code ++ s) = found f (code ++ lit "];" ++ nl ++ nl ++ s).
  Proof.
    unfold data_text. pose proof (fmt_d_line n) as Hd. generalize dependent (fmt_d n). intros x Hx. rewrite <- !app_assoc.
    skip_lines Q. reflexivity.
  Qed.
  Lemma found_data_end s : found f (lit "];" ++ nl ++ nl ++ s) = found f s.
  Proof. skip_lines Q. reflexivity. Qed.
  Lemma found_tests keys : Forall (fun kb => one_line (hash_ident (fst kb)) = true) keys -> found f (tests_text keys) = [].
  Proof.
    intros H. unfold tests_text. skip_lines Q.
    induction H as [|[k b] keys Hk _ IH]; cbn [flat_map app].
    - skip_lines Q. destruct Q as (Q0 & _). unfold rest, nl. cbn [lines N.eqb Pos.eqb tl flat_map]. rewrite Q0. reflexivity.
    - unfold test_text at 1. cbn [fst] in Hk. rewrite <- !app_assoc. skip_lines Q. exact IH.
  Qed.
End Parts.

(** ** Rows *)
Lemma upto_word w c s : forallb word_char w = true -> word_char c = false -> upto c (w ++ c :: s) = Some (w, s).
Proof.
  intros H Hc. induction w as [|d w IH]; cbn [app upto]; [rewrite N.eqb_refl; reflexivity|].
  cbn [forallb] in H. apply andb_prop in H. destruct H as [Hd Hw]. destruct (N.eqb_spec d c) as [->|]; [congruence|]. rewrite (IH Hw). reflexivity.
Qed.
Lemma skip_blanks_pad n s : skip_blanks (repeat 32 n ++ 47 :: s) = 47 :: s.
Proof. induction n as [|n IH]; [reflexivity|]. cbn [repeat app skip_blanks]. exact IH. Qed.

Lemma read_row_line w n pad printable c : is_word w = true -> literal w = Some n -> is_digit (hd 0 w) = true ->
  c <> [] -> Forall (fun c => c < 0x110000) c ->
  read_row (lit "    " ++ w ++ lit "," ++ repeat 32 pad ++ lit "// " ++ label_for_cluster printable c) = Some (n, c).
Proof.
  intros Hw El Hd Hc Hs. apply is_word_ne in Hw. destruct Hw as [Hne Hw]. destruct w as [|d w]; [contradiction|]. cbn [hd] in Hd.
  change (lit "    " ++ (d :: w) ++ ?s) with (32 :: 32 :: 32 :: 32 :: d :: (w ++ s)). unfold read_row. rewrite Hd.
  change (d :: w ++ ?s) with ((d :: w) ++ s). change (lit "," ++ ?s) with (44 :: s). rewrite upto_word by (assumption || reflexivity).
  rewrite El. change (lit "// " ++ ?s) with (47 :: 47 :: 32 :: s). rewrite skip_blanks_pad. rewrite read_label_back by assumption. reflexivity.
Qed.

Lemma found_joined {A B} (f : str -> option A) (row : B -> str) (x : B -> option A) b s : b <> [] ->
  Forall (fun e => one_line (row e) = true /\ f (lit "    " ++ row e) = x e) b ->
  found f (lit "    " ++ join (nl ++ lit "    ") (map row b) ++ nl ++ s) = flat_map (fun e => opt_list (x e)) b ++ found f s.
Proof.
  intros Hne H. induction H as [|e b [H1 H2] H IH]; [contradiction|]. cbn [map join flat_map].
  assert (L : one_line (lit "    " ++ row e) = true) by (rewrite one_line_app, H1; reflexivity).
  destruct b as [|e' b]; cbn [map].
  - rewrite app_assoc, found_one by exact L. rewrite H2. cbn [flat_map]. rewrite app_nil_r. reflexivity.
  - cbn [map] in IH. rewrite <- !app_assoc. rewrite (app_assoc (lit "    ") (row e)), found_one by exact L. rewrite H2, IH by discriminate.
    reflexivity.
Qed.

Definition clusters_ok (b : block_index) : Prop := Forall (fun e => e_cluster e <> [] /\ Forall (fun c => c < 0x110000) (e_cluster e)) b.

Section Rows.
  Context (printable : N -> bool) (Hp : printable 10 = false).

  Lemma digit_upper ds : Forall (fun d => d < 10) ds -> ds <> [] -> is_digit (hd 0 (map upper_digit ds)) = true.
  Proof.
    intros F N. destruct F as [|d ds H _]; [contradiction|]. cbn [map hd]. unfold is_digit, upper_digit. destruct (N.ltb_spec d 10); lia.
  Qed.
  Lemma hash_row e : e_cluster e <> [] -> Forall (fun c => c < 0x110000) (e_cluster e) ->
    let row := lit "0x" ++ fmt_08X (e_hash e) ++ lit ",  // " ++ label_for_cluster printable (e_cluster e) in
    one_line row = true /\ read_row (lit "    " ++ row) = Some (e_hash e, e_cluster e).
  Proof.
    intros Hc Hs row. subst row. split.
    - rewrite app_assoc, one_line_app, (is_word_one_line _ (is_word_08X (e_hash e))), one_line_app, label_one_line by exact Hp. reflexivity.
    - rewrite (app_assoc (lit "0x")). apply (read_row_line _ (e_hash e) 2 printable (e_cluster e)); try assumption.
      + apply is_word_08X.
      + apply literal_08X.
      + reflexivity.
  Qed.
  Lemma offset_row e : e_cluster e <> [] -> Forall (fun c => c < 0x110000) (e_cluster e) ->
    let row := space_pad 5 (fmt_d (e_offset e) ++ lit ",") ++ lit " // " ++ label_for_cluster printable (e_cluster e) in
    one_line row = true /\ read_row (lit "    " ++ row) = Some (e_offset e, e_cluster e).
  Proof.
    intros Hc Hs row. subst row. unfold space_pad. set (pad := (5 - _)%nat).
    assert (E : ((fmt_d (e_offset e) ++ lit ",") ++ repeat 32 pad) ++ lit " // " ++ label_for_cluster printable (e_cluster e)
      = fmt_d (e_offset e) ++ lit "," ++ repeat 32 (S pad) ++ lit "// " ++ label_for_cluster printable (e_cluster e)).
    { rewrite <- !app_assoc. do 2 f_equal. change (lit " // " ++ ?s) with ([32] ++ lit "// " ++ s).
      rewrite app_assoc, <- (repeat_cons pad 32). reflexivity. }
    rewrite E. split.
    - rewrite !one_line_app, fmt_d_line, label_one_line by exact Hp. rewrite !andb_true_r. cbn [andb].
      generalize (S pad). intros n. induction n as [|n IH]; [reflexivity|]. exact IH.
    - apply (read_row_line _ (e_offset e) (S pad) printable (e_cluster e)); try assumption.
      + apply is_word_d.
      + apply literal_dec.
      + apply digit_upper; [apply digits_small; lia|apply digits_nonempty].
  Qed.

  Lemma block_rows k b s : one_line (find_ident k) = true -> one_line (hash_ident k) = true -> one_line (offset_ident k) = true -> clusters_ok b ->
    rows (block_text printable (k, b) ++ s) =
    map (fun e => (e_hash e, e_cluster e)) b ++ map (fun e => (e_offset e, e_cluster e)) b ++ rows s.
  Proof.
    intros H1 H2 H3 Hb. unfold block_text. destruct b as [|e0 b0]; [reflexivity|]. remember (e0 :: b0) as b eqn:Eb.
    assert (Hne : b <> []) by (subst; discriminate). clear Eb e0 b0.
    pose proof (fmt_d_line (N.of_nat (length b))) as Hd. generalize dependent (fmt_d (N.of_nat (length b))). intros x Hx.
    generalize dependent (find_ident k). intros i1 H1. generalize dependent (hash_ident k). intros i2 H2. generalize dependent (offset_ident k). intros i3 H3.
    rewrite <- !app_assoc. unfold rows. pose proof quiet_row as Q. skip_lines Q.
    unfold code_for_hashes. rewrite (found_joined read_row _ (fun e => Some (e_hash e, e_cluster e)) b); [|exact Hne|].
    2:{ eapply Forall_impl; [|exact Hb]. intros e [He1 He2]. apply hash_row; assumption. }
    skip_lines Q.
    unfold code_for_offsets. rewrite (found_joined read_row _ (fun e => Some (e_offset e, e_cluster e)) b); [|exact Hne|].
    2:{ eapply Forall_impl; [|exact Hb]. intros e [He1 He2]. apply offset_row; assumption. }
    skip_lines Q. cbn [opt_list].
    assert (M : forall (T : Type) (g : entry -> T) l, flat_map (fun e => [g e]) l = map g l).
    { intros T g l. induction l as [|e l IH]; [reflexivity|]. cbn [flat_map map app]. rewrite IH. reflexivity. }
    rewrite !M. reflexivity.
  Qed.
  Lemma block_records k b s : one_line (find_ident k) = true -> one_line (hash_ident k) = true -> one_line (offset_ident k) = true -> clusters_ok b ->
    records (block_text printable (k, b) ++ s) = records s.
  Proof.
    intros H1 H2 H3 Hb. unfold block_text. destruct b as [|e0 b0]; [reflexivity|]. remember (e0 :: b0) as b eqn:Eb.
    assert (Hne : b <> []) by (subst; discriminate). clear Eb e0 b0.
    pose proof (fmt_d_line (N.of_nat (length b))) as Hd. generalize dependent (fmt_d (N.of_nat (length b))). intros x Hx.
    generalize dependent (find_ident k). intros i1 H1. generalize dependent (hash_ident k). intros i2 H2. generalize dependent (offset_ident k). intros i3 H3.
    rewrite <- !app_assoc. unfold records. pose proof quiet_record as Q. skip_lines Q.
    assert (R : forall d t, is_digit d = true -> read_record (lit "    " ++ d :: t) = None).
    { intros d t H. cbn [lit app]. unfold read_record. destruct d as [|p]; [reflexivity|]. do 6 (try (destruct p as [p|p|])); try reflexivity; discriminate H. }
    unfold code_for_hashes. rewrite (found_joined read_record _ (fun e => None) b); [|exact Hne|].
    2:{ eapply Forall_impl; [|exact Hb]. intros e [He1 He2]. split; [apply hash_row; assumption|]. reflexivity. }
    skip_lines Q.
    unfold code_for_offsets. rewrite (found_joined read_record _ (fun e => None) b); [|exact Hne|].
    2:{ eapply Forall_impl; [|exact Hb]. intros e [He1 He2]. split; [apply offset_row; assumption|]. unfold space_pad, fmt_d.
        pose proof (digits_small 10 (e_offset e) ltac:(lia)) as F. pose proof (digits_nonempty 10 (e_offset e)) as Ne. pose proof (digit_upper _ F Ne) as Du.
        destruct (digits 10 (e_offset e)) as [|d ds]; [contradiction|]. cbn [map hd] in Du. cbn [map]. rewrite <- !app_assoc. apply R, Du. }
    skip_lines Q. cbn [opt_list].
    assert (M : flat_map (fun _ : entry => @nil (N * str * str)) b = []) by (clear; induction b; auto). rewrite M. reflexivity.
  Qed.
End Rows.
