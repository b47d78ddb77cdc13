(** * Hexadecimal cluster names are read back *)
From Coq Require Import ZArith.
From Verif Require Import Prim PrimFacts Str SpecCodegen Codegen.

Lemma digit_text d : d < 16 -> hex_digit (if d <? 10 then 48 + d else 87 + d) = Some d.
Proof.
  intros H. unfold hex_digit. destruct (N.ltb_spec d 10).
  - replace ((48 <=? 48 + d) && (48 + d <=? 57)) with true by lia. f_equal. lia.
  - replace ((48 <=? 87 + d) && (87 + d <=? 57)) with false by lia.
    replace ((65 <=? 87 + d) && (87 + d <=? 70)) with false by lia.
    replace ((97 <=? 87 + d) && (87 + d <=? 102)) with true by lia. f_equal. lia.
Qed.

Lemma parse_digits_app s t acc : parse_digits acc (s ++ t) =
  match parse_digits acc s with Some a => parse_digits a t | None => None end.
Proof.
  revert acc; induction s as [|b s IH]; intros acc; simpl; [reflexivity|].
  destruct (hex_digit b); [|reflexivity]. destruct (_ <=? _); [reflexivity|]. apply IH.
Qed.

Lemma hex_text_parse fuel : forall n, n < 16 ^ N.of_nat fuel -> n < 2 ^ 32 -> (0 < fuel)%nat ->
  parse_digits 0 (hex_text fuel n) = Some n.
Proof.
  induction fuel as [|fuel IH]; intros n Hn H32 Hf; [lia|]. cbn [hex_text].
  assert (Hd : n mod 16 < 16) by (apply N.mod_lt; lia).
  rewrite parse_digits_app.
  assert (E : parse_digits 0 (if n <? 16 then [] else hex_text fuel (n / 16)) = Some (n / 16)).
  { destruct (N.ltb_spec n 16).
    - cbn [parse_digits]. f_equal. rewrite N.div_small by assumption. reflexivity.
    - apply IH.
      + rewrite Nnat.Nat2N.inj_succ, N.pow_succ_r' in Hn. apply N.div_lt_upper_bound; lia.
      + change (2 ^ 32) with 4294967296 in *. lia.
      + destruct fuel; [|lia]. change (16 ^ N.of_nat 1) with 16 in Hn. lia. }
  rewrite E. cbn [parse_digits]. rewrite digit_text by exact Hd.
  replace (16 * (n / 16) + n mod 16) with n by lia.
  destruct (N.leb_spec (2 ^ 32) n); [lia|reflexivity].
Qed.

Lemma hex_text_parses n : n < 2 ^ 32 -> parse_hex (hex_text 8 n) = Some n.
Proof.
  intros H. assert (E : parse_digits 0 (hex_text 8 n) = Some n).
  { apply hex_text_parse; [|exact H|lia]. change (16 ^ N.of_nat 8) with (2 ^ 32). exact H. }
  unfold parse_hex. destruct (hex_text 8 n) eqn:E'; [|exact E].
  exfalso. cbn [hex_text] in E'. apply app_eq_nil in E'. destruct E'; discriminate.
Qed.

Definition no_dash (s : list N) : Prop := Forall (fun b => b <> 45) s.

Lemma hex_text_no_dash fuel : forall n, no_dash (hex_text fuel n).
Proof.
  induction fuel as [|fuel IH]; intros n; cbn [hex_text]; [constructor|].
  apply Forall_app. split.
  - destruct (n <? 16); [constructor|apply IH].
  - constructor; [|constructor]. assert (n mod 16 < 16) by (apply N.mod_lt; lia).
    destruct (N.ltb_spec (n mod 16) 10); lia.
Qed.

Lemma split_single s : no_dash s -> split_on 45 s = [s].
Proof.
  induction 1 as [|b t Hb Ht IH]; [reflexivity|]. cbn [split_on].
  destruct (N.eqb_spec b 45); [contradiction|]. rewrite IH. reflexivity.
Qed.

Lemma split_cons s rest : no_dash s -> split_on 45 (s ++ 45 :: rest) = s :: split_on 45 rest.
Proof.
  induction 1 as [|b t Hb Ht IH]; [reflexivity|]. cbn [app split_on].
  destruct (N.eqb_spec b 45); [contradiction|]. rewrite IH. reflexivity.
Qed.

Lemma char_u32 c : is_char c = true -> c < 2 ^ 32.
Proof. unfold is_char. change (2 ^ 32) with 4294967296. lia. Qed.

Lemma hex_name_read s : s <> [] -> Forall (fun c => is_char c = true) s ->
  string_from_hex_gc (hex_name s) = Ret s.
Proof.
  intros Hne F. unfold string_from_hex_gc.
  induction F as [|c t Hc Ft IH]; [contradiction|].
  assert (Ec : match parse_hex (hex_text 8 c) with Some n => Ret (rune n) | None => Panic end = Ret c).
  { rewrite hex_text_parses by (apply char_u32; exact Hc). unfold rune. rewrite Hc. reflexivity. }
  destruct t as [|c' t].
  - cbn [hex_name]. rewrite split_single by apply hex_text_no_dash.
    cbn [map_res]. rewrite Ec. reflexivity.
  - assert (E : hex_name (c :: c' :: t) = hex_text 8 c ++ 45 :: hex_name (c' :: t)) by reflexivity.
    rewrite E, split_cons by apply hex_text_no_dash.
    cbn [map_res]. rewrite Ec. cbn [bind].
    rewrite IH by discriminate. reflexivity.
Qed.
