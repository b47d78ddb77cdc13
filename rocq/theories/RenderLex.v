(** * Tokens of the generator's text *)
From Coq Require Import ZArith String Ascii.
From Verif Require Import Prim PrimFacts Str FontDefs Codegen Render SpecRust.
Local Open Scope N_scope.
Local Open Scope list_scope.
Local Notation length := List.length.

(** ** Reading text from left to right *)
Definition toks (m : mode) (s : str) : list tok := fst (scan m s) ++ last_token (snd (scan m s)).

Lemma tokens_toks s : tokens s = toks Ground s.
Proof. unfold tokens, toks. destruct (scan Ground s). reflexivity. Qed.

Lemma scan_cons m c s : scan m (c :: s) =
  (fst (step m c) ++ fst (scan (snd (step m c)) s), snd (scan (snd (step m c)) s)).
Proof. cbn [scan]. destruct (step m c) as [o m1]. cbn [fst snd]. destruct (scan m1 s). reflexivity. Qed.

Lemma step_word w c : word_char c = false ->
  step (InWord w) c = (Word (rev w) :: fst (next_token c), snd (next_token c)).
Proof. intros H. cbn [step]. rewrite H. destruct (next_token c). reflexivity. Qed.

Lemma toks_cons m c s : toks m (c :: s) = fst (step m c) ++ toks (snd (step m c)) s.
Proof. unfold toks. rewrite scan_cons. cbn [fst snd]. rewrite app_assoc. reflexivity. Qed.

Lemma toks_app m a : forall s, toks m (a ++ s) = fst (scan m a) ++ toks (snd (scan m a)) s.
Proof.
  revert m. induction a as [|c a IH]; intros m s; [reflexivity|].
  cbn [app]. rewrite scan_cons. cbn [fst snd]. rewrite toks_cons, IH, app_assoc. reflexivity.
Qed.

(** A literal piece *)
Lemma toks_piece m a ts m' s s0 : s0 = a ++ s -> scan m a = (ts, m') -> toks m s0 = ts ++ toks m' s.
Proof. intros -> E. rewrite toks_app, E. reflexivity. Qed.

(** A word before something that is no part of it *)
Definition ends_word (s : str) : bool := match s with [] => true | c :: _ => negb (word_char c) end.

Lemma scan_word w : forall u, forallb word_char w = true -> scan (InWord u) w = ([], InWord (rev w ++ u)).
Proof.
  induction w as [|c w IH]; intros u H; [reflexivity|].
  cbn [forallb] in H. apply andb_prop in H. destruct H as [Hc H].
  rewrite scan_cons. cbn [step]. rewrite Hc. cbn [fst snd]. rewrite (IH (c :: u) H). cbn [fst snd rev app].
  rewrite <- app_assoc. reflexivity.
Qed.

Lemma toks_word w s : w <> [] -> forallb word_char w = true -> ends_word s = true ->
  toks Ground (w ++ s) = Word w :: toks Ground s.
Proof.
  intros Hn H E. destruct w as [|c w]; [contradiction|].
  cbn [forallb] in H. apply andb_prop in H. destruct H as [Hc H].
  cbn [app]. rewrite toks_cons. cbn [step]. unfold next_token. rewrite Hc. cbn [fst snd app].
  rewrite toks_app, scan_word by exact H. cbn [fst snd app].
  assert (Er : rev (rev w ++ [c]) = c :: w) by (rewrite rev_app_distr, rev_involutive; reflexivity).
  destruct s as [|d s].
  - unfold toks. cbn [scan fst snd last_token app]. rewrite Er. reflexivity.
  - cbn [ends_word] in E. rewrite !toks_cons.
    destruct (word_char d) eqn:Ed; [discriminate|]. rewrite (step_word _ _ Ed). cbn [step fst snd app]. rewrite Er. reflexivity.
Qed.

(** A comment runs to the end of the line *)
Definition one_line (s : str) : bool := forallb (fun c => negb (c =? 10)) s.

Lemma one_line_app a b : one_line (a ++ b) = one_line a && one_line b.
Proof. apply forallb_app. Qed.

Lemma toks_comment l s : one_line l = true -> toks Comment (l ++ s) = toks Comment s.
Proof.
  induction l as [|c l IH]; intros H; [reflexivity|].
  cbn [one_line forallb] in H. apply andb_prop in H. destruct H as [Hc H].
  cbn [app]. rewrite toks_cons. cbn [step]. destruct (c =? 10); [discriminate|]. cbn [fst snd app].
  apply IH. exact H.
Qed.
Lemma toks_comment_end s : toks Comment (nl ++ s) = toks Ground s.
Proof. unfold nl. cbn [app]. rewrite toks_cons. reflexivity. Qed.

Lemma toks_nl s : toks Ground (nl ++ s) = toks Ground s.
Proof. unfold nl. cbn [app]. rewrite toks_cons. reflexivity. Qed.
Lemma toks_spaces n s : toks Ground (repeat 32 n ++ s) = toks Ground s.
Proof. induction n as [|n IH]; [reflexivity|]. cbn [repeat app]. rewrite toks_cons. exact IH. Qed.

(** Text made of comments *)
Lemma toks_comments legal s : only_comments legal -> toks Ground (legal ++ nl ++ s) = toks Ground s.
Proof.
  unfold only_comments. rewrite tokens_toks. intros H. unfold toks in H. apply app_eq_nil in H. destruct H as [H1 H2].
  rewrite toks_app, H1. cbn [app]. destruct (snd (scan Ground legal)); try discriminate; [apply toks_nl|apply toks_comment_end].
Qed.

(** ** Numbers *)
Definition value (base acc : N) (ds : list N) : N := fold_left (fun a d => a * base + d) ds acc.

Lemma digits_loop_value base : 2 <= base -> forall fuel n acc, n < 2 ^ N.of_nat fuel ->
  value base 0 (digits_loop (S fuel) base n acc) = value base n acc.
Proof.
  intros Hb fuel. induction fuel as [|k IH]; intros n acc H.
  - cbn in H. assert (n = 0) as -> by lia. cbn [digits_loop]. rewrite N.div_0_l by lia. cbn [N.eqb value fold_left].
    rewrite N.mod_0_l by lia. reflexivity.
  - remember (S k) as k1. cbn [digits_loop].
    pose proof (N.div_mod n base ltac:(lia)) as D.
    destruct (N.eqb_spec (n / base) 0) as [E|E].
    + unfold value. cbn [fold_left]. rewrite E in D. replace (0 * base + n mod base) with n by lia. reflexivity.
    + subst k1. rewrite IH.
      * unfold value. cbn [fold_left]. replace (n / base * base + n mod base) with n by lia. reflexivity.
      * rewrite Nat2N.inj_succ, N.pow_succ_r' in H. apply N.div_lt_upper_bound; [lia|]. nia.
Qed.

Lemma size_bound n : n < 2 ^ N.of_nat (N.to_nat (N.size n)).
Proof. rewrite N2Nat.id. apply N.size_gt. Qed.

Lemma digits_value base n : 2 <= base -> value base 0 (digits base n) = n.
Proof.
  intros Hb. unfold digits. rewrite digits_loop_value; [reflexivity|exact Hb|apply size_bound].
Qed.

Lemma digits_loop_small base : 0 < base -> forall fuel n acc, Forall (fun d => d < base) acc ->
  Forall (fun d => d < base) (digits_loop fuel base n acc).
Proof.
  intros Hb fuel. induction fuel as [|k IH]; intros n acc F; [exact F|].
  cbn [digits_loop]. assert (F' : Forall (fun d => d < base) (n mod base :: acc)).
  { constructor; [apply N.mod_lt; lia|exact F]. }
  destruct (n / base =? 0); auto.
Qed.
Lemma digits_small base n : 0 < base -> Forall (fun d => d < base) (digits base n).
Proof. intros Hb. apply digits_loop_small; [exact Hb|constructor]. Qed.

Lemma digits_loop_nonempty base fuel : forall n acc, acc <> [] -> digits_loop fuel base n acc <> [].
Proof.
  induction fuel as [|k IH]; intros n acc H; [exact H|]. cbn [digits_loop].
  destruct (n / base =? 0); [discriminate|]. apply IH. discriminate.
Qed.
Lemma digits_nonempty base n : digits base n <> [].
Proof.
  unfold digits. cbn [digits_loop]. destruct (n / base =? 0); [discriminate|].
  apply digits_loop_nonempty. discriminate.
Qed.

Lemma number_digits base (digit : N -> option N) (show : N -> N) ds :
  (forall d, d < base -> digit (show d) = Some d) -> Forall (fun d => d < base) ds ->
  forall acc, number base digit acc (map show ds) = Some (value base acc ds).
Proof.
  intros Hd F. induction F as [|d ds H F IH]; intros acc; [reflexivity|].
  cbn [map number]. rewrite Hd by exact H. apply IH.
Qed.

Lemma dec_upper d : d < 10 -> dec_digit (upper_digit d) = Some d.
Proof.
  intros H. unfold dec_digit, upper_digit. replace (d <? 10) with true by lia.
  replace ((48 <=? 48 + d) && (48 + d <=? 57)) with true by lia. f_equal. lia.
Qed.
Lemma hexa_upper d : d < 16 -> hexa_digit (upper_digit d) = Some d.
Proof.
  intros H. unfold hexa_digit, upper_digit. destruct (N.ltb_spec d 10).
  - replace ((48 <=? 48 + d) && (48 + d <=? 57)) with true by lia. f_equal. lia.
  - replace ((48 <=? 55 + d) && (55 + d <=? 57)) with false by lia.
    replace ((65 <=? 55 + d) && (55 + d <=? 70)) with true by lia. f_equal. lia.
Qed.
Lemma hexa_lower d : d < 16 -> hexa_digit (lower_digit d) = Some d.
Proof.
  intros H. unfold hexa_digit, lower_digit. destruct (N.ltb_spec d 10).
  - replace ((48 <=? 48 + d) && (48 + d <=? 57)) with true by lia. f_equal. lia.
  - replace ((48 <=? 87 + d) && (87 + d <=? 57)) with false by lia.
    replace ((65 <=? 87 + d) && (87 + d <=? 70)) with false by lia.
    replace ((97 <=? 87 + d) && (87 + d <=? 102)) with true by lia. f_equal. lia.
Qed.

Lemma literal_dec n : literal (fmt_d n) = Some n.
Proof.
  assert (N10 : number 10 dec_digit 0 (fmt_d n) = Some n).
  { unfold fmt_d. rewrite (number_digits 10 dec_digit upper_digit); [|exact dec_upper|apply digits_small; lia].
    f_equal. apply digits_value. lia. }
  unfold literal, fmt_d in *. pose proof (digits_small 10 n ltac:(lia)) as F.
  destruct (digits 10 n) as [|a [|b [|c t]]] eqn:E; [apply digits_nonempty in E; contradiction|exact N10|exact N10|].
  cbn [map] in *. inversion F as [|? ? Ha F']; subst. inversion F' as [|? ? Hb _]; subst.
  replace (upper_digit b =? 120) with false by (unfold upper_digit; destruct (b <? 10) eqn:?; lia).
  rewrite andb_false_r. exact N10.
Qed.

Lemma number_zeros digit base k s : digit 48 = Some 0 ->
  number base digit 0 (repeat 48 k ++ s) = number base digit 0 s.
Proof.
  intros H. induction k as [|k IH]; [reflexivity|]. cbn [repeat app number]. rewrite H.
  change (0 * base + 0) with 0. exact IH.
Qed.

Lemma pad_nonempty k s : s <> [] -> zero_pad k s <> [].
Proof. intros H E. unfold zero_pad in E. apply app_eq_nil in E. apply H. apply E. Qed.
Lemma map_nonempty {A B} (f : A -> B) l : l <> [] -> map f l <> [].
Proof. destruct l; [contradiction|discriminate]. Qed.

Lemma literal_hex s n : s <> [] -> number 16 hexa_digit 0 s = Some n -> literal (lit "0x" ++ s) = Some n.
Proof. intros Hn E. destruct s as [|c s]; [contradiction|]. exact E. Qed.

Lemma literal_X n : literal (lit "0x" ++ fmt_X n) = Some n.
Proof.
  apply literal_hex; [apply map_nonempty, digits_nonempty|]. unfold fmt_X.
  rewrite (number_digits 16 hexa_digit upper_digit); [|exact hexa_upper|apply digits_small; lia].
  f_equal. apply digits_value. lia.
Qed.
Lemma literal_08X n : literal (lit "0x" ++ fmt_08X n) = Some n.
Proof.
  apply literal_hex; [apply pad_nonempty, map_nonempty, digits_nonempty|]. unfold fmt_08X, zero_pad, fmt_X.
  rewrite number_zeros by reflexivity.
  rewrite (number_digits 16 hexa_digit upper_digit); [|exact hexa_upper|apply digits_small; lia].
  f_equal. apply digits_value. lia.
Qed.
Lemma literal_08x n : literal (lit "0x" ++ fmt_08x n) = Some n.
Proof.
  apply literal_hex; [apply pad_nonempty, map_nonempty, digits_nonempty|]. unfold fmt_08x, zero_pad.
  rewrite number_zeros by reflexivity.
  rewrite (number_digits 16 hexa_digit lower_digit); [|exact hexa_lower|apply digits_small; lia].
  f_equal. apply digits_value. lia.
Qed.

(** Numbers are words *)
Definition is_word (w : str) : bool := negb (match w with [] => true | _ => false end) && forallb word_char w.

Lemma is_word_ne w : is_word w = true -> w <> [] /\ forallb word_char w = true.
Proof. unfold is_word. destruct w; [discriminate|]. intros H. split; [discriminate|exact H]. Qed.

Lemma toks_is_word w s : is_word w = true -> ends_word s = true -> toks Ground (w ++ s) = Word w :: toks Ground s.
Proof. intros H. apply is_word_ne in H. apply toks_word; apply H. Qed.

Lemma word_upper ds : Forall (fun d => d < 16) ds -> forallb word_char (map upper_digit ds) = true.
Proof.
  intros F. induction F as [|d ds H F IH]; [reflexivity|]. cbn [map forallb]. rewrite IH, andb_true_r.
  unfold word_char, upper_digit. destruct (N.ltb_spec d 10); lia.
Qed.
Lemma word_lower ds : Forall (fun d => d < 16) ds -> forallb word_char (map lower_digit ds) = true.
Proof.
  intros F. induction F as [|d ds H F IH]; [reflexivity|]. cbn [map forallb]. rewrite IH, andb_true_r.
  unfold word_char, lower_digit. destruct (N.ltb_spec d 10); lia.
Qed.
Lemma digits_16 base n : 0 < base <= 16 -> Forall (fun d => d < 16) (digits base n).
Proof. intros H. eapply Forall_impl; [|apply (digits_small base n); lia]. cbn. intros d. lia. Qed.

Lemma is_word_intro w : w <> [] -> forallb word_char w = true -> is_word w = true.
Proof. intros H1 H2. unfold is_word. destruct w; [contradiction|]. exact H2. Qed.

Lemma is_word_d n : is_word (fmt_d n) = true.
Proof.
  apply is_word_intro; [apply map_nonempty, digits_nonempty|]. apply word_upper, digits_16. lia.
Qed.
Lemma word_zeros k s : forallb word_char s = true -> forallb word_char (repeat 48 k ++ s) = true.
Proof. intros H. induction k as [|k IH]; [exact H|]. cbn [repeat app forallb]. rewrite IH. reflexivity. Qed.
Lemma is_word_app a b : is_word a = true -> forallb word_char b = true -> is_word (a ++ b) = true.
Proof.
  intros Ha Hb. apply is_word_ne in Ha. apply is_word_intro.
  - intros E. apply app_eq_nil in E. destruct Ha as [Ha _]. apply Ha. apply E.
  - rewrite forallb_app, Hb, andb_true_r. apply Ha.
Qed.
Lemma is_word_X n : is_word (lit "0x" ++ fmt_X n) = true.
Proof. apply is_word_app; [reflexivity|]. apply word_upper, digits_16. lia. Qed.
Lemma is_word_08X n : is_word (lit "0x" ++ fmt_08X n) = true.
Proof. apply is_word_app; [reflexivity|]. apply word_zeros, word_upper, digits_16. lia. Qed.
Lemma is_word_08x n : is_word (lit "0x" ++ fmt_08x n) = true.
Proof. apply is_word_app; [reflexivity|]. apply word_zeros, word_lower, digits_16. lia. Qed.

Lemma fmt_int_nonneg z : (0 <= z)%Z -> fmt_int z = fmt_d (Z.to_N z).
Proof. intros H. unfold fmt_int. destruct (Z.ltb_spec z 0); [lia|reflexivity]. Qed.

(** ** Labels stay on their line *)
Lemma words_one_line s : forallb word_char s = true -> one_line s = true.
Proof.
  intros H. unfold one_line. rewrite forallb_forall in *. intros c I. specialize (H c I).
  destruct (N.eqb_spec c 10) as [->|]; [discriminate H|reflexivity].
Qed.
Lemma is_word_one_line s : is_word s = true -> one_line s = true.
Proof. intros H. apply words_one_line. apply is_word_ne in H. apply H. Qed.

Lemma utf8_rune_one_line r : r <> 10 -> one_line (utf8_rune r) = true.
Proof.
  intros H. unfold utf8_rune.
  repeat match goal with |- one_line (if ?b then _ else _) = true => destruct b eqn:? end; cbn [one_line forallb]; lia.
Qed.
Lemma quote_rune_one_line printable r : printable 10 = false -> one_line (quote_rune printable r) = true.
Proof.
  intros Hp. unfold quote_rune.
  destruct ((r =? 34) || (r =? 92)) eqn:E0.
  { cbn [one_line forallb]. lia. }
  destruct (printable r) eqn:E1.
  { apply utf8_rune_one_line. intros ->. congruence. }
  repeat match goal with |- one_line (if ?b then _ else _) = true => destruct b; try reflexivity end;
    rewrite one_line_app; apply andb_true_intro; (split; [reflexivity|]); apply words_one_line.
  - apply word_zeros, word_lower, digits_16. lia.
  - apply word_zeros, word_lower, digits_16. lia.
  - apply word_zeros, word_lower, digits_16. lia.
Qed.

Lemma join_one_line sep l : one_line sep = true -> Forall (fun s => one_line s = true) l -> one_line (join sep l) = true.
Proof.
  intros Hs F. induction F as [|s l H F IH]; [reflexivity|].
  cbn [join]. destruct l; [exact H|]. rewrite !one_line_app, H, Hs, IH. reflexivity.
Qed.

Lemma label_one_line printable c : printable 10 = false -> one_line (label_for_cluster printable c) = true.
Proof.
  intros Hp.
  assert (Q : one_line (fmt_q printable c) = true).
  { unfold fmt_q. change (34 :: flat_map (quote_rune printable) c ++ [34])
      with ([34] ++ flat_map (quote_rune printable) c ++ [34]).
    rewrite !one_line_app. cbn [one_line forallb N.eqb Pos.eqb negb andb]. rewrite andb_true_r.
    induction c as [|r c IH]; [reflexivity|]. cbn [flat_map]. rewrite one_line_app, IH, quote_rune_one_line by exact Hp.
    reflexivity. }
  assert (D : one_line (if (1 <? length c)%nat then fmt_q printable c ++ lit " " ++ join (lit "-") (map fmt_X c)
                        else fmt_q printable c) = true).
  { destruct (1 <? length c)%nat; [|exact Q]. rewrite !one_line_app, Q.
    cbn [andb]. apply andb_true_intro. split; [reflexivity|]. apply join_one_line; [reflexivity|].
    rewrite Forall_map. rewrite Forall_forall. intros r _. apply words_one_line, word_upper, digits_16. lia. }
  unfold label_for_cluster. cbv zeta.
  repeat match goal with
  | |- one_line (match ?x with _ => _ end) = true => destruct x; try exact D; try reflexivity
  end.
Qed.

(** A hex string the generator can parse contains no line break *)
Lemma split_on_nil sep s : split_on sep s <> [].
Proof. destruct s as [|b t]; cbn [split_on]; [discriminate|]. destruct (b =? sep); [discriminate|]. destruct (split_on sep t); discriminate. Qed.

Lemma parse_digits_one_line s : forall acc n, parse_digits acc s = Some n -> one_line s = true.
Proof.
  induction s as [|b t IH]; intros acc n E; [reflexivity|]. cbn [parse_digits] in E.
  destruct (hex_digit b) as [d|] eqn:Ed; [|discriminate].
  cbv zeta in E. destruct (2 ^ 32 <=? 16 * acc + d); [discriminate|].
  cbn [one_line forallb]. fold (one_line t). rewrite (IH _ _ E), andb_true_r.
  destruct (N.eqb_spec b 10) as [->|]; [discriminate Ed|reflexivity].
Qed.
Lemma hex_one_line hex cl : string_from_hex_gc hex = Ret cl -> one_line hex = true.
Proof.
  unfold string_from_hex_gc. intros E.
  assert (F : Forall (fun p => one_line p = true) (split_on 45 hex)).
  { revert cl E. induction (split_on 45 hex) as [|p ps IH]; intros cl E; [constructor|].
    cbn [map_res] in E. apply bind_ret_inv in E. destruct E as (c & Ec & E).
    apply bind_ret_inv in E. destruct E as (cs & Es & _). constructor; [|exact (IH _ Es)].
    destruct (parse_hex p) as [n|] eqn:Ep; [|discriminate]. unfold parse_hex in Ep.
    destruct p; [discriminate|]. exact (parse_digits_one_line _ _ _ Ep). }
  clear E cl. revert F. induction hex as [|b t IH]; intros F; [reflexivity|].
  cbn [split_on] in F. cbn [one_line forallb]. fold (one_line t).
  destruct (N.eqb_spec b 45) as [->|Hb].
  - inversion F; subst. rewrite IH by assumption. reflexivity.
  - pose proof (split_on_nil 45 t) as Hn. destruct (split_on 45 t) as [|p ps]; [contradiction|].
    inversion F as [|? ? H1 H2]; subst. cbn [one_line forallb] in H1. fold (one_line p) in H1.
    apply andb_prop in H1. destruct H1 as [H1 H3]. rewrite H1. cbn [andb].
    apply IH. constructor; assumption.
Qed.
