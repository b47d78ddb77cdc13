(** * What Ruby's JSON.generate writes, encoding/json reads *)
From Coq Require Import ZArith String Lia.
From Verif Require Import Prim Str FontDefs Codegen CodegenText Render RenderLex Config Editor SpecEditor.
Local Open Scope N_scope.
Local Open Scope list_scope.
Local Notation length := List.length.

(** The value that is meant *)
Fixpoint json_of (v : rval) : json :=
  match v with
  | RInt z => JNum (fmt_int z)
  | RStr s => JStr (encode s)
  | RArr l => JArr (map json_of l)
  | RHash l => JObj (map (fun kv => (encode (fst kv), json_of (snd kv))) l)
  end.

(** All its strings hold characters *)
Fixpoint strings_ok (v : rval) : Prop :=
  match v with
  | RInt _ => True
  | RStr s => scalars s
  | RArr l => fold_right (fun x P => strings_ok x /\ P) True l
  | RHash l => fold_right (fun kv P => (scalars (fst kv) /\ strings_ok (snd kv)) /\ P) True l
  end.

Section Ind.
  Variable P : rval -> Prop.
  Hypothesis Hint : forall z, P (RInt z).
  Hypothesis Hstr : forall s, P (RStr s).
  Hypothesis Harr : forall l, Forall P l -> P (RArr l).
  Hypothesis Hhash : forall l, Forall (fun kv => P (snd kv)) l -> P (RHash l).
  Fixpoint rval_ind' (v : rval) : P v :=
    match v with
    | RInt z => Hint z
    | RStr s => Hstr s
    | RArr l => Harr l ((fix go l := match l return Forall P l with
                                     | [] => Forall_nil _
                                     | x :: t => Forall_cons _ (rval_ind' x) (go t)
                                     end) l)
    | RHash l => Hhash l ((fix go l := match l return Forall (fun kv => P (snd kv)) l with
                                       | [] => Forall_nil _
                                       | x :: t => Forall_cons x (rval_ind' (snd x)) (go t)
                                       end) l)
    end.
End Ind.

(** ** White space *)
Definition blank_text (s : list N) : Prop := Forall (fun c => json_space c = true) s.
Lemma json_blank_text s : json_blank s -> blank_text s.
Proof.
  intros H. eapply Forall_impl; [|exact H]. cbn. intros c I. unfold json_space.
  destruct I as [<-|[<-|[<-|[<-|[]]]]]; reflexivity.
Qed.
Lemma skip_blank s t : blank_text s -> skip_space (s ++ t) = skip_space t.
Proof. induction 1 as [|c s H F IH]; [reflexivity|]. cbn [app skip_space]. rewrite H. exact IH. Qed.
Lemma skip_none c t : json_space c = false -> skip_space (c :: t) = c :: t.
Proof. intros H. cbn [skip_space]. rewrite H. reflexivity. Qed.
Lemma blank_app a b : blank_text a -> blank_text b -> blank_text (a ++ b).
Proof. intros A B. apply Forall_app. split; assumption. Qed.
Lemma blank_indent f d : blank_text (js_indent f) -> blank_text (indent_to f d).
Proof. intros H. unfold indent_to. induction d as [|d IH]; [constructor|]. cbn [repeat concat]. apply blank_app; assumption. Qed.

(** ** Strings *)
Lemma decode_encode c t : c < 0xD800 \/ 0xE000 <= c < 0x110000 ->
  decode_rune (utf8_rune c ++ t) = (c, length (utf8_rune c)).
Proof.
  intros H. unfold utf8_rune.
  destruct (N.ltb_spec c 0x80).
  { cbn [app decode_rune length]. replace (c <? 0x80) with true by lia. reflexivity. }
  destruct (N.ltb_spec c 0x800).
  { cbn [app decode_rune length cont tail6].
    replace (0xC0 + c / 64 <? 0x80) with false by lia.
    replace (((0xC2 <=? 0xC0 + c / 64) && (0xC0 + c / 64 <=? 0xDF) && ((0x80 <=? 0x80 + c mod 64) && (0x80 + c mod 64 <=? 0xBF)))) with true by lia.
    f_equal. lia. }
  destruct (N.ltb_spec c 0x10000).
  { cbn [app decode_rune length cont tail6 tl].
    replace (0xE0 + c / 4096 <? 0x80) with false by lia.
    replace ((0xC2 <=? 0xE0 + c / 4096) && (0xE0 + c / 4096 <=? 0xDF) && ((0x80 <=? 0x80 + c / 64 mod 64) && (0x80 + c / 64 mod 64 <=? 0xBF))) with false by lia.
    assert (Q : c / 4096 < 16) by lia.
    assert (L : (if 0xE0 + c / 4096 =? 0xE0 then 0xA0 else 0x80) <= 0x80 + c / 64 mod 64).
    { destruct (N.eqb_spec (0xE0 + c / 4096) 0xE0); lia. }
    assert (U : 0x80 + c / 64 mod 64 <= (if 0xE0 + c / 4096 =? 0xED then 0x9F else 0xBF)).
    { destruct (N.eqb_spec (0xE0 + c / 4096) 0xED); lia. }
    match goal with |- (if ?b then _ else _) = _ => replace b with true by lia end.
    f_equal. lia. }
  cbn [app decode_rune length cont tail6 tl].
  assert (Q : c / 262144 < 5) by lia.
  replace (0xF0 + c / 262144 <? 0x80) with false by lia.
  replace ((0xC2 <=? 0xF0 + c / 262144) && (0xF0 + c / 262144 <=? 0xDF) && ((0x80 <=? 0x80 + c / 4096 mod 64) && (0x80 + c / 4096 mod 64 <=? 0xBF))) with false by lia.
  match goal with |- (if ?b then _ else _) = _ => replace b with false by lia end.
  assert (L : (if 0xF0 + c / 262144 =? 0xF0 then 0x90 else 0x80) <= 0x80 + c / 4096 mod 64).
  { destruct (N.eqb_spec (0xF0 + c / 262144) 0xF0); lia. }
  assert (U : 0x80 + c / 4096 mod 64 <= (if 0xF0 + c / 262144 =? 0xF4 then 0x8F else 0xBF)).
  { destruct (N.eqb_spec (0xF0 + c / 262144) 0xF4); lia. }
  match goal with |- (if ?b then _ else _) = _ => replace b with true by lia end.
  f_equal. lia.
Qed.

Lemma rune_head c : exists b t, utf8_rune c = b :: t /\ (c < 0x80 -> b = c) /\ (0x80 <= c -> 0xC0 <= b).
Proof.
  unfold utf8_rune. destruct (N.ltb_spec c 0x80); [exists c, []; repeat split; lia|].
  destruct (N.ltb_spec c 0x800); [eexists _, _; split; [reflexivity|]; lia|].
  destruct (N.ltb_spec c 0x10000); eexists _, _; (split; [reflexivity|]); lia.
Qed.
Lemma skipn_all_app {A} (a b : list A) : skipn (length a) (a ++ b) = b.
Proof. rewrite skipn_app, skipn_all, Nat.sub_diag. reflexivity. Qed.

(** One character *)
Lemma escape_read c t fuel : c < 0xD800 \/ 0xE000 <= c < 0x110000 ->
  json_string (S fuel) (json_escape c ++ t) =
  match json_string fuel t with Some (w, rest) => Some (utf8_rune c ++ w, rest) | None => None end.
Proof.
  intros H. unfold json_escape.
  destruct (N.eqb_spec c 34) as [->|N34]; [reflexivity|].
  destruct (N.eqb_spec c 92) as [->|N92]; [reflexivity|].
  destruct (N.eqb_spec c 8) as [->|]; [reflexivity|].
  destruct (N.eqb_spec c 9) as [->|]; [reflexivity|].
  destruct (N.eqb_spec c 10) as [->|]; [reflexivity|].
  destruct (N.eqb_spec c 12) as [->|]; [reflexivity|].
  destruct (N.eqb_spec c 13) as [->|]; [reflexivity|].
  destruct (N.ltb_spec c 32) as [L|L].
  - assert (I : In c (map N.of_nat (seq 0 32))).
    { apply in_map_iff. exists (N.to_nat c). split; [lia|]. apply in_seq. lia. }
    cbv [map seq N.of_nat Pos.of_succ_nat Pos.succ] in I. cbn [In] in I.
    repeat (destruct I as [<-|I]; [reflexivity|]). destruct I.
  - destruct (rune_head c) as (b & u & E & B1 & B2).
    assert (D := decode_encode c t H). assert (K := skipn_all_app (utf8_rune c) t).
    cbn [json_string]. rewrite E in *. cbn [app] in *.
    destruct (N.ltb_spec c 0x80); [specialize (B1 ltac:(lia)); subst b|specialize (B2 ltac:(lia))];
      (match goal with |- (if ?x =? 34 then _ else _) = _ =>
         replace (x =? 34) with false by lia; replace (x <? 32) with false by lia; replace (x =? 92) with false by lia end);
      rewrite D; cbn [length] in *; rewrite K, E; reflexivity.
Qed.

Lemma escape_length c : (1 <= length (json_escape c))%nat.
Proof.
  unfold json_escape.
  repeat match goal with |- context [if ?b then _ else _] => destruct b; [cbn [length]; lia|] end.
  destruct (rune_head c) as (b & u & -> & _). cbn [length]. lia.
Qed.
Lemma escapes_length s : (length s <= length (flat_map json_escape s))%nat.
Proof.
  induction s as [|c s IH]; [cbn; lia|]. cbn [flat_map length]. rewrite app_length. pose proof (escape_length c). lia.
Qed.

Lemma string_read s t : scalars s -> forall fuel, (length s < fuel)%nat ->
  json_string fuel (flat_map json_escape s ++ 34 :: t) = Some (encode s, t).
Proof.
  induction 1 as [|c s H F IH]; intros fuel L; (destruct fuel as [|fuel]; [lia|]).
  - reflexivity.
  - cbn [flat_map]. rewrite <- app_assoc, escape_read by exact H. cbn [length] in L.
    rewrite IH by lia. reflexivity.
Qed.
Lemma text_read s t : scalars s -> json_string (S (length (flat_map json_escape s ++ 34 :: t))) (flat_map json_escape s ++ 34 :: t) = Some (encode s, t).
Proof.
  intros H. apply string_read; [exact H|]. rewrite app_length. pose proof (escapes_length s). lia.
Qed.

(** ** Numbers *)
Definition stops (t : list N) : Prop :=
  match t with [] => True | c :: _ => json_space c = true \/ c = 44 \/ c = 93 \/ c = 125 end.

Definition is_digit (c : N) : Prop := 48 <= c <= 57.
Lemma digits_taken ds t : Forall is_digit ds -> (match t with [] => True | c :: _ => ~ is_digit c end) ->
  take_digits (ds ++ t) = (ds, t).
Proof.
  intros F Ht. induction F as [|c ds H F IH].
  - destruct t as [|c t]; [reflexivity|]. cbn [app take_digits]. unfold is_digit in Ht.
    replace ((48 <=? c) && (c <=? 57)) with false by lia. reflexivity.
  - cbn [app take_digits]. unfold is_digit in H. replace ((48 <=? c) && (c <=? 57)) with true by lia.
    rewrite IH. reflexivity.
Qed.
Lemma fmt_d_digits n : Forall is_digit (fmt_d n).
Proof.
  unfold fmt_d. apply Forall_map. eapply Forall_impl; [|apply (digits_small 10 n); lia].
  cbn. intros d H. unfold is_digit, upper_digit. replace (d <? 10) with true by lia. lia.
Qed.

(** The first digit is 0 only for 0 *)
Lemma digits_loop_head base fuel : forall n acc, 1 < base -> n < base ^ N.of_nat fuel -> 0 < n ->
  exists d t, digits_loop fuel base n acc = d :: t /\ 0 < d.
Proof.
  induction fuel as [|fuel IH]; intros n acc Hb Hn Hp; [cbn in Hn; lia|].
  cbn [digits_loop]. destruct (N.eqb_spec (n / base) 0) as [E|E].
  - eexists _, _. split; [reflexivity|]. apply N.div_small_iff in E; [|lia]. rewrite N.mod_small by exact E. exact Hp.
  - apply IH; [exact Hb| |].
    + apply N.div_lt_upper_bound; [lia|]. rewrite Nat2N.inj_succ, N.pow_succ_r in Hn by lia. exact Hn.
    + apply N.neq_0_lt_0 in E. exact E.
Qed.
Lemma fmt_d_head n : exists d more, fmt_d n = d :: more /\ is_digit d /\ (d = 48 -> more = []).
Proof.
  pose proof (fmt_d_digits n) as F. destruct (N.eq_dec n 0) as [->|Hn].
  - exists 48, []. repeat split; try reflexivity; unfold is_digit; lia.
  - unfold fmt_d, digits in *.
    destruct (digits_loop_head 10 (S (N.to_nat (N.size n))) n [] ltac:(lia)) as (d & t & E & Hd); [|lia|].
    { rewrite Nat2N.inj_succ, N2Nat.id, N.pow_succ_r by lia.
      pose proof (N.size_gt n). assert (2 ^ N.size n <= 10 ^ N.size n) by (apply N.pow_le_mono_l; lia). lia. }
    rewrite E in *. cbn [map] in *. inversion F as [|? ? H1 H2]; subst.
    exists (upper_digit d), (map upper_digit t). repeat split; try reflexivity; try apply H1.
    intros E0. exfalso. revert E0. unfold upper_digit. destruct (N.ltb_spec d 10); lia.
Qed.

Lemma stops_number t : stops t -> match t with [] => True | c :: _ => ~ is_digit c /\ c <> 46 /\ c <> 101 /\ c <> 69 end.
Proof. destruct t as [|c t]; [trivial|]. cbn. unfold json_space, is_digit. intros H. destruct H as [H|H]; lia. Qed.

Lemma plain_number n t : stops t -> json_number (fmt_d n ++ t) = Some (fmt_d n, t).
Proof.
  intros Ht. apply stops_number in Ht.
  destruct (fmt_d_head n) as (d & more & E & Hd & H0).
  assert (T : take_digits (fmt_d n ++ t) = (fmt_d n, t)).
  { apply digits_taken; [apply fmt_d_digits|]. destruct t; [exact I|apply Ht]. }
  unfold json_number. rewrite E in *. cbn [app] in *.
  assert (S0 : (match d :: more ++ t with 45 :: t0 => ([45], t0) | _ => ([], d :: more ++ t) end) = ([], d :: more ++ t)).
  { unfold is_digit in Hd. destruct d as [|p]; [reflexivity|].
    destruct p as [p|p|]; try reflexivity; destruct p as [p|p|]; try reflexivity; destruct p as [p|p|]; try reflexivity;
    destruct p as [p|p|]; try reflexivity; destruct p as [p|p|]; try reflexivity; destruct p as [p|p|]; try reflexivity; lia. }
  rewrite S0, T.
  assert (Z : (d =? 48) && negb (match more with [] => true | _ => false end) = false).
  { destruct (N.eqb_spec d 48) as [Ed|]; [|reflexivity]. rewrite (H0 Ed). reflexivity. }
  rewrite Z. destruct t as [|c t]; [rewrite app_nil_r; reflexivity|].
  destruct Ht as (_ & N46 & N101 & N69).
  assert (D46 : (match c :: t with 46 :: t0 => match take_digits t0 with ([], _) => None | (f, t1) => Some (46 :: f, t1) end | _ => Some ([], c :: t) end) = Some ([], c :: t)).
  { destruct c as [|p]; [reflexivity|].
    destruct p as [p|p|]; try reflexivity; destruct p as [p|p|]; try reflexivity; destruct p as [p|p|]; try reflexivity;
    destruct p as [p|p|]; try reflexivity; destruct p as [p|p|]; try reflexivity; destruct p as [p|p|]; try reflexivity; lia. }
  rewrite D46. replace ((c =? 101) || (c =? 69)) with false by lia. cbn [app]. rewrite app_nil_r. reflexivity.
Qed.

Lemma negative_number n t : stops t -> json_number (45 :: fmt_d n ++ t) = Some (45 :: fmt_d n, t).
Proof.
  intros Ht. pose proof (plain_number n t Ht) as P. unfold json_number in *.
  destruct (fmt_d_head n) as (d & more & E & Hd & H0). rewrite E in *. cbn [app] in *.
  assert (S0 : (match d :: more ++ t with 45 :: t0 => ([45], t0) | _ => ([], d :: more ++ t) end) = ([], d :: more ++ t)).
  { unfold is_digit in Hd. destruct d as [|p]; [reflexivity|].
    destruct p as [p|p|]; try reflexivity; destruct p as [p|p|]; try reflexivity; destruct p as [p|p|]; try reflexivity;
    destruct p as [p|p|]; try reflexivity; destruct p as [p|p|]; try reflexivity; destruct p as [p|p|]; try reflexivity; lia. }
  rewrite S0 in P. destruct (take_digits (d :: more ++ t)) as [whole s].
  destruct whole as [|w more']; [discriminate|].
  destruct ((w =? 48) && _); [discriminate|].
  destruct (match s with 46 :: t0 => _ | _ => Some ([], s) end) as [[f s']|]; [|discriminate].
  destruct s' as [|e s'].
  - cbn [app] in *. injection P as P1 P2. rewrite P1, P2. congruence.
  - destruct ((e =? 101) || (e =? 69)).
    + destruct (match s' with c :: t' => _ | [] => ([], []) end) as [esign t1].
      destruct (take_digits t1) as [[|x xs] t2]; [discriminate|]. cbn [app] in *. injection P as P1 P2 P3. subst. congruence.
    + cbn [app] in *. injection P as P1 P2 P3. subst. congruence.
Qed.

Lemma int_read z t : stops t -> json_number (fmt_int z ++ t) = Some (fmt_int z, t).
Proof.
  intros H. unfold fmt_int. destruct (z <? 0)%Z; [apply negative_number|apply plain_number]; exact H.
Qed.

(** ** Values *)
Lemma value_blank ws fuel s : blank_text ws -> json_value fuel (ws ++ s) = json_value fuel s.
Proof. intros H. destruct fuel as [|fuel]; [reflexivity|]. cbn [json_value]. rewrite skip_blank by exact H. reflexivity. Qed.
Lemma elements_blank ws fuel s : blank_text ws -> json_elements fuel (ws ++ s) = json_elements fuel s.
Proof. intros H. destruct fuel as [|fuel]; [reflexivity|]. cbn [json_elements]. rewrite value_blank by exact H. reflexivity. Qed.
Lemma members_blank ws fuel s : blank_text ws -> json_members fuel (ws ++ s) = json_members fuel s.
Proof. intros H. destruct fuel as [|fuel]; [reflexivity|]. cbn [json_members]. rewrite skip_blank by exact H. reflexivity. Qed.

Definition starts_value (s : list N) : Prop :=
  match s with c :: _ => json_space c = false /\ c <> 93 /\ c <> 125 | [] => False end.
Lemma bracketed_head f d nl op cl items : exists t, bracketed f d nl op cl items = op :: t.
Proof. unfold bracketed. destruct items; eexists; reflexivity. Qed.
Lemma fmt_int_starts z : starts_value (fmt_int z).
Proof.
  unfold fmt_int. destruct (z <? 0)%Z; [repeat split; discriminate|].
  destruct (fmt_d_head (Z.to_N z)) as (d & more & -> & Hd & _). unfold is_digit, starts_value, json_space in *. lia.
Qed.
Lemma generate_starts f d v : starts_value (generate f d v).
Proof.
  destruct v as [z|s|l|l]; cbn [generate].
  - apply fmt_int_starts.
  - repeat split; discriminate.
  - edestruct bracketed_head as [t ->]. repeat split; discriminate.
  - edestruct bracketed_head as [t ->]. repeat split; discriminate.
Qed.

Lemma value_number c t fuel : is_digit c \/ c = 45 ->
  json_value (S fuel) (c :: t) = match json_number (c :: t) with Some (w, rest) => Some (JNum w, rest) | None => None end.
Proof.
  intros H. unfold is_digit in H. cbn [json_value]. rewrite skip_none by (unfold json_space; lia).
  replace (c =? 123) with false by lia. replace (c =? 91) with false by lia. replace (c =? 34) with false by lia.
  replace (c =? 116) with false by lia. replace (c =? 102) with false by lia. replace (c =? 110) with false by lia.
  reflexivity.
Qed.
Lemma int_value z t fuel : stops t -> json_value (S fuel) (fmt_int z ++ t) = Some (JNum (fmt_int z), t).
Proof.
  intros H. pose proof (int_read z t H) as E.
  assert (Hd : exists c u, fmt_int z = c :: u /\ (is_digit c \/ c = 45)).
  { unfold fmt_int. destruct (z <? 0)%Z; [eexists _, _; split; [reflexivity|right; reflexivity]|].
    destruct (fmt_d_head (Z.to_N z)) as (d & more & E0 & Hd & _). exists d, more. split; [exact E0|left; exact Hd]. }
  destruct Hd as (c & u & E0 & Hc). rewrite E0 in *. cbn [app] in *. rewrite value_number by exact Hc.
  rewrite E. reflexivity.
Qed.
Lemma str_value s t fuel : scalars s -> json_value (S fuel) (json_text s ++ t) = Some (JStr (encode s), t).
Proof.
  intros H. unfold json_text. cbn [app]. rewrite <- app_assoc. cbn [app]. cbn [json_value].
  rewrite skip_none by reflexivity. cbn [N.eqb Pos.eqb].
  rewrite text_read by exact H. reflexivity.
Qed.

Lemma starts_skip ws s u : blank_text ws -> starts_value s ->
  exists c t, skip_space (ws ++ s ++ u) = c :: t /\ c <> 93 /\ c <> 125.
Proof.
  intros W S. rewrite skip_blank by exact W. destruct s as [|c s]; [contradiction|]. destruct S as (S1 & S2 & S3).
  cbn [app]. rewrite skip_none by exact S1. exists c, (s ++ u). repeat split; assumption.
Qed.

(** Elements that are read one by one *)
Definition reads (text : list N) (v : json) : Prop :=
  forall t fuel, stops t -> (2 * length text <= fuel)%nat -> json_value fuel (text ++ t) = Some (v, t).

Lemma elements_read nl ind ws texts vs : blank_text nl -> blank_text ind -> blank_text ws ->
  texts <> [] -> Forall2 reads texts vs -> forall t fuel,
  (2 * length (join (44%N :: nl) (map (fun s => ind ++ s) texts)) + 1 <= fuel)%nat ->
  json_elements fuel (join (44 :: nl) (map (fun s => ind ++ s) texts) ++ ws ++ 93 :: t) = Some (vs, t).
Proof.
  intros Bn Bi Bw Hne F. induction F as [|s v texts vs Hr F IH]; [contradiction|]. clear Hne.
  intros t fuel L. destruct fuel as [|fuel]; [lia|].
  destruct texts as [|s2 texts].
  - inversion F; subst. cbn [map join] in *. rewrite app_length in L.
    cbn [json_elements]. rewrite <- app_assoc, value_blank by exact Bi.
    rewrite Hr; [| |lia].
    + rewrite skip_blank by exact Bw. rewrite skip_none by reflexivity. reflexivity.
    + destruct Bw as [|c w Hc Bw]; cbn [app stops]; [right; right; left; reflexivity|left; exact Hc].
  - change (join (44 :: nl) (map (fun s => ind ++ s) (s :: s2 :: texts)))
      with ((ind ++ s) ++ (44 :: nl) ++ join (44 :: nl) (map (fun s => ind ++ s) (s2 :: texts))) in *.
    remember (join (44 :: nl) (map (fun s => ind ++ s) (s2 :: texts))) as more.
    rewrite !app_length in L. cbn [length] in L.
    cbn [json_elements]. rewrite <- !app_assoc, value_blank by exact Bi.
    rewrite Hr; [|cbn [app stops]; right; left; reflexivity|lia].
    cbn [app]. rewrite skip_none by reflexivity. cbn [N.eqb Pos.eqb].
    rewrite elements_blank by exact Bn. rewrite IH by (try discriminate; lia). reflexivity.
Qed.

Definition member_text (sp : list N) (kt : list N * list N) : list N := json_text (fst kt) ++ 58 :: sp ++ snd kt.
Lemma members_read nl ind sp ws items vs : blank_text nl -> blank_text ind -> blank_text sp -> blank_text ws ->
  items <> [] -> Forall2 (fun kt v => scalars (fst kt) /\ reads (snd kt) v) items vs -> forall t fuel,
  (2 * length (join (44%N :: nl) (map (fun kt => ind ++ member_text sp kt) items)) + 1 <= fuel)%nat ->
  json_members fuel (join (44 :: nl) (map (fun kt => ind ++ member_text sp kt) items) ++ ws ++ 125 :: t)
  = Some (combine (map (fun kt => encode (fst kt)) items) vs, t).
Proof.
  intros Bn Bi Bs Bw Hne F. induction F as [|[k s] v items vs [Hk Hr] F IH]; [contradiction|]. clear Hne.
  cbn [fst snd] in Hk, Hr.
  assert (One : forall u t0 fuel, stops u -> (2 * length s <= fuel)%nat -> skip_space u = t0 ->
    json_members (S fuel) (ind ++ member_text sp (k, s) ++ u) =
    match t0 with
    | [] => None
    | c :: t => if c =? 125 then Some ([(encode k, v)], t)
                else if c =? 44 then match json_members fuel t with Some (l, rest) => Some ((encode k, v) :: l, rest) | None => None end
                else None
    end).
  { intros u t0 fuel Hu L E. unfold member_text, json_text. cbn [fst snd].
    rewrite members_blank by exact Bi. cbn [app]. cbn [json_members]. rewrite skip_none by reflexivity. cbn [N.eqb Pos.eqb].
    rewrite <- !app_assoc. cbn [app]. rewrite <- app_assoc, text_read by exact Hk. rewrite skip_none by reflexivity. cbn [N.eqb Pos.eqb].
    rewrite value_blank by exact Bs. rewrite Hr by assumption. rewrite E. reflexivity. }
  intros t fuel L. destruct fuel as [|fuel]; [lia|].
  assert (Lm : (length s <= length (member_text sp (k, s)))%nat).
  { unfold member_text. cbn [fst snd]. rewrite app_length. cbn [length]. rewrite app_length. lia. }
  destruct items as [|kt2 items].
  - inversion F; subst. cbn [map join] in *. rewrite app_length in L. rewrite <- app_assoc.
    rewrite (One (ws ++ 125 :: t) (125 :: t)); [reflexivity| |lia|].
    + destruct Bw as [|c w Hc Bw]; cbn [app stops]; [right; right; right; reflexivity|left; exact Hc].
    + rewrite skip_blank by exact Bw. apply skip_none. reflexivity.
  - change (join (44 :: nl) (map (fun kt => ind ++ member_text sp kt) ((k, s) :: kt2 :: items)))
      with ((ind ++ member_text sp (k, s)) ++ (44 :: nl) ++ join (44 :: nl) (map (fun kt => ind ++ member_text sp kt) (kt2 :: items))) in *.
    remember (join (44 :: nl) (map (fun kt => ind ++ member_text sp kt) (kt2 :: items))) as more.
    rewrite !app_length in L. cbn [length] in L. rewrite <- !app_assoc. cbn [app].
    erewrite One; [|cbn [stops]; right; left; reflexivity|lia|apply skip_none; reflexivity].
    cbn [N.eqb Pos.eqb]. rewrite members_blank by exact Bn. rewrite IH by (try discriminate; lia). reflexivity.
Qed.

Definition state_ok (f : json_state) : Prop :=
  json_blank (js_indent f) /\ json_blank (js_space f) /\ json_blank (js_object_nl f) /\ json_blank (js_array_nl f).

Lemma Forall2_maps {A B C} (R : B -> C -> Prop) (f : A -> B) (g : A -> C) l :
  Forall (fun a => R (f a) (g a)) l -> Forall2 R (map f l) (map g l).
Proof. induction 1; cbn [map]; constructor; assumption. Qed.

Lemma map_fuse {A B C} (f : B -> C) (g : A -> B) (h : A -> C) l : (forall a, f (g a) = h a) -> map f (map g l) = map h l.
Proof. intros H. rewrite map_map. apply map_ext. exact H. Qed.

Lemma strings_all (P : rval -> Prop) l : fold_right (fun x P => strings_ok x /\ P) True l -> Forall strings_ok l.
Proof. induction l as [|x l IH]; intros H; constructor; [apply H|apply IH; apply H]. Qed.
Lemma strings_all' l : fold_right (fun kv P => (scalars (fst kv) /\ strings_ok (snd kv)) /\ P) True l ->
  Forall (fun kv => scalars (fst kv) /\ strings_ok (snd kv)) l.
Proof. induction l as [|x l IH]; intros H; constructor; [apply H|apply IH; apply H]. Qed.

Lemma generate_reads f v : state_ok f -> strings_ok v -> forall d, reads (generate f d v) (json_of v).
Proof.
  intros (B1 & B2 & B3 & B4). apply json_blank_text in B1, B2, B3, B4.
  induction v as [z|s|l IH|l IH] using rval_ind'; intros Hs d t fuel Ht L.
  - cbn [generate json_of] in *. pose proof (fmt_int_starts z) as S. destruct (fmt_int z) as [|c u] eqn:E; [contradiction|].
    cbn [length] in L. destruct fuel as [|fuel]; [lia|]. rewrite <- E. apply int_value. exact Ht.
  - cbn [generate json_of strings_ok] in *. unfold json_text in L. cbn [length] in L. destruct fuel as [|fuel]; [lia|].
    apply str_value. exact Hs.
  - cbn [generate json_of strings_ok] in *. apply (strings_all (fun _ => True)) in Hs.
    destruct l as [|v l].
    { cbn [map bracketed length] in *. destruct fuel as [|fuel]; [lia|]. reflexivity. }
    set (texts := map (generate f (S d)) (v :: l)) in *.
    assert (E : bracketed f d (js_array_nl f) 91 93 texts =
      91 :: js_array_nl f ++ join (44 :: js_array_nl f) (map (fun s => indent_to f (S d) ++ s) texts)
      ++ (js_array_nl f ++ indent_to f d) ++ [93]).
    { unfold bracketed. destruct texts eqn:Et; [discriminate|]. rewrite <- !app_assoc. reflexivity. }
    rewrite E in *. cbn [length] in L. rewrite !app_length in L. cbn [length] in L.
    destruct fuel as [|fuel]; [lia|]. cbn [app]. cbn [json_value]. rewrite skip_none by reflexivity. cbn [N.eqb Pos.eqb].
    rewrite <- !app_assoc.
    destruct (starts_skip (js_array_nl f ++ indent_to f (S d)) (generate f (S d) v)
                (skipn (length (generate f (S d) v)) (skipn (length (indent_to f (S d))) (join (44 :: js_array_nl f) (map (fun s => indent_to f (S d) ++ s) texts)))
                 ++ js_array_nl f ++ indent_to f d ++ [93] ++ t)) as (c & u & Es & N93 & N125).
    { apply blank_app; [exact B4|apply blank_indent; exact B1]. }
    { apply generate_starts. }
    assert (Ex : (js_array_nl f ++ indent_to f (S d)) ++ generate f (S d) v ++
       skipn (length (generate f (S d) v)) (skipn (length (indent_to f (S d))) (join (44 :: js_array_nl f) (map (fun s => indent_to f (S d) ++ s) texts)))
       ++ js_array_nl f ++ indent_to f d ++ [93] ++ t
       = js_array_nl f ++ join (44 :: js_array_nl f) (map (fun s => indent_to f (S d) ++ s) texts) ++ js_array_nl f ++ indent_to f d ++ [93] ++ t).
    { rewrite <- !app_assoc. f_equal. rewrite (app_assoc (generate f (S d) v)), (app_assoc (indent_to f (S d))). f_equal.
      unfold texts. cbn [map join]. destruct (map (fun s => indent_to f (S d) ++ s) (map (generate f (S d)) l)).
      - rewrite skipn_all_app, skipn_all, app_nil_r. reflexivity.
      - rewrite <- !app_assoc, skipn_all_app, skipn_all_app. reflexivity. }
    rewrite Ex in Es. rewrite Es. replace (c =? 93) with false by lia.
    rewrite elements_blank by exact B4.
    rewrite (app_assoc (js_array_nl f) (indent_to f d)). cbn [app].
    rewrite (elements_read (js_array_nl f) (indent_to f (S d)) (js_array_nl f ++ indent_to f d) texts (map json_of (v :: l))); [reflexivity|..].
    + exact B4.
    + apply blank_indent. exact B1.
    + apply blank_app; [exact B4|apply blank_indent; exact B1].
    + discriminate.
    + unfold texts. apply Forall2_maps. rewrite Forall_forall in *. intros x I. apply IH; [exact I|apply Hs; exact I].
    + lia.
  - cbn [generate json_of strings_ok] in *. apply strings_all' in Hs.
    destruct l as [|kv l].
    { cbn [map bracketed length] in *. destruct fuel as [|fuel]; [lia|]. reflexivity. }
    set (items := map (fun kv => (fst kv, generate f (S d) (snd kv))) (kv :: l)) in *.
    assert (E0 : map (fun kv => json_text (fst kv) ++ 58 :: js_space f ++ generate f (S d) (snd kv)) (kv :: l)
                 = map (member_text (js_space f)) items).
    { unfold items. rewrite map_map. reflexivity. }
    rewrite E0 in *. clear E0.
    assert (E : bracketed f d (js_object_nl f) 123 125 (map (member_text (js_space f)) items) =
      123 :: js_object_nl f ++ join (44 :: js_object_nl f) (map (fun kt => indent_to f (S d) ++ member_text (js_space f) kt) items)
      ++ (js_object_nl f ++ indent_to f d) ++ [125]).
    { unfold bracketed. rewrite map_map. destruct items eqn:Et; [discriminate|]. cbn [map]. rewrite <- !app_assoc. reflexivity. }
    rewrite E in *. cbn [length] in L. rewrite !app_length in L. cbn [length] in L.
    destruct fuel as [|fuel]; [lia|]. cbn [app]. cbn [json_value]. rewrite skip_none by reflexivity. cbn [N.eqb Pos.eqb].
    rewrite <- !app_assoc.
    assert (Es : exists c u, skip_space (js_object_nl f ++ join (44 :: js_object_nl f) (map (fun kt => indent_to f (S d) ++ member_text (js_space f) kt) items)
       ++ js_object_nl f ++ indent_to f d ++ [125] ++ t) = c :: u /\ c = 34).
    { rewrite skip_blank by exact B3. unfold items. cbn [map join].
      destruct (map (fun kt => indent_to f (S d) ++ member_text (js_space f) kt) (map (fun kv => (fst kv, generate f (S d) (snd kv))) l));
        rewrite <- !app_assoc, skip_blank by (apply blank_indent; exact B1);
        unfold member_text, json_text; cbn [app]; rewrite skip_none by reflexivity; eexists _, _; (split; [reflexivity|reflexivity]). }
    destruct Es as (c & u & Es & ->). rewrite Es. cbn [N.eqb Pos.eqb].
    rewrite members_blank by exact B3.
    rewrite (app_assoc (js_object_nl f) (indent_to f d)). cbn [app].
    rewrite (members_read (js_object_nl f) (indent_to f (S d)) (js_space f) (js_object_nl f ++ indent_to f d) items (map (fun kv => json_of (snd kv)) (kv :: l))).
    + f_equal. f_equal. f_equal. unfold items. rewrite map_map. cbn [fst].
      generalize (kv :: l). intros l0. induction l0 as [|a l0 IHl]; [reflexivity|]. cbn [map combine]. f_equal. exact IHl.
    + exact B3.
    + apply blank_indent. exact B1.
    + exact B2.
    + apply blank_app; [exact B3|apply blank_indent; exact B1].
    + discriminate.
    + unfold items. apply Forall2_maps. rewrite Forall_forall in *. intros x I. cbn [fst snd]. split; [apply Hs; exact I|].
      apply IH; [exact I|apply Hs; exact I].
    + lia.
Qed.

Lemma json_round_trip f v before after : state_ok f -> strings_ok v -> json_blank before -> json_blank after ->
  parse_json (before ++ generate f 0 v ++ after) = Some (json_of v).
Proof.
  intros Hf Hv Hb Ha. apply json_blank_text in Hb, Ha. unfold parse_json. rewrite value_blank by exact Hb.
  rewrite (generate_reads f v Hf Hv 0%nat).
  - replace after with (after ++ []) by apply app_nil_r. rewrite skip_blank by exact Ha. reflexivity.
  - destruct Ha as [|c a H Ha]; [exact I|left; exact H].
  - rewrite !app_length. lia.
Qed.
