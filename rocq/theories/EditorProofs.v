(** * The script that writes the generator's files: what it writes, the generator reads *)
From Coq Require Import ZArith String Lia.
From Verif Require Import Prim Str FontDefs Codegen CodegenText SpecLines LinesProofs Render SpecRust RenderLex Config Editor SpecEditor EditorJson HexProofs.
Local Open Scope N_scope.
Local Open Scope list_scope.
Local Notation length := List.length.

(** ** The answer *)
Lemma first_line_app a t : ~ In 10 a -> first_line (a ++ 10 :: t) = a ++ [10].
Proof.
  induction a as [|c a IH]; intros H; [reflexivity|]. cbn [app first_line].
  replace (c =? 10) with false. { rewrite IH; [reflexivity|]. intros I. apply H. right. exact I. }
  symmetry. apply N.eqb_neq. intros ->. apply H. left. reflexivity.
Qed.
Lemma first_line_none a : ~ In 10 a -> first_line a = a.
Proof.
  induction a as [|c a IH]; intros H; [reflexivity|]. cbn [first_line].
  replace (c =? 10) with false. { rewrite IH; [reflexivity|]. intros I. apply H. right. exact I. }
  symmetry. apply N.eqb_neq. intros ->. apply H. left. reflexivity.
Qed.
Lemma line_split s : exists a, ~ In 10 a /\ (s = a \/ exists t, s = a ++ 10 :: t).
Proof.
  induction s as [|c s (a & Ha & [->|[t ->]])].
  - exists []. split; [intros []|left; reflexivity].
  - destruct (N.eq_dec c 10) as [->|Hc].
    + exists []. split; [intros []|]. right. exists a. reflexivity.
    + exists (c :: a). split; [intros [E|I]; [congruence|contradiction]|]. left. reflexivity.
  - destruct (N.eq_dec c 10) as [->|Hc].
    + exists []. split; [intros []|]. right. eexists. reflexivity.
    + exists (c :: a). split; [intros [E|I]; [congruence|contradiction]|]. right. exists t. reflexivity.
Qed.

Definition accepted (answer : list N) : bool :=
  if list_eq_dec N.eq_dec answer (lit "y") then true
  else if list_eq_dec N.eq_dec answer (lit "Y") then true else false.
Lemma accepted_spec a : accepted a = true <-> a = [121] \/ a = [89].
Proof.
  unfold accepted. destruct (list_eq_dec N.eq_dec a (lit "y")) as [->|H1]; [split; [left; reflexivity|reflexivity]|].
  destruct (list_eq_dec N.eq_dec a (lit "Y")) as [->|H2]; [split; [right; reflexivity|reflexivity]|].
  split; [discriminate|]. intros [->| ->]; contradiction.
Qed.

Lemma chomp_rev a b : chomp (rev a) = b -> (exists t, a = 10 :: 13 :: t /\ b = rev t) \/
  (exists t, a = 10 :: t /\ (forall u, t <> 13 :: u) /\ b = rev t) \/ (exists t, a = 13 :: t /\ b = rev t) \/
  ((forall t, a <> 10 :: t) /\ (forall t, a <> 13 :: t) /\ b = rev a).
Proof.
  unfold chomp. rewrite rev_involutive. intros <-.
  destruct a as [|x a].
  { right. right. right. split; [|split]; try reflexivity; intros; discriminate. }
  destruct (N.eq_dec x 10) as [->|H10].
  { destruct a as [|y a].
    - right. left. exists []. split; [reflexivity|]. split; [discriminate|reflexivity].
    - destruct (N.eq_dec y 13) as [->|H13].
      + left. exists a. split; reflexivity.
      + right. left. exists (y :: a). split; [reflexivity|]. split; [congruence|].
        destruct y as [|p]; [reflexivity|].
        destruct p as [p|p|]; try reflexivity; destruct p as [p|p|]; try reflexivity;
        destruct p as [p|p|]; try reflexivity; destruct p as [p|p|]; try reflexivity. congruence. }
  destruct (N.eq_dec x 13) as [->|H13].
  { right. right. left. exists a. split; reflexivity. }
  right. right. right. split; [congruence|]. split; [congruence|].
  destruct x as [|p]; [reflexivity|].
  destruct p as [p|p|]; try reflexivity; destruct p as [p|p|]; try reflexivity;
  destruct p as [p|p|]; try reflexivity; destruct p as [p|p|]; try reflexivity; congruence.
Qed.

Lemma answer_yes input : input <> [] -> (accepted (chomp (first_line input)) = true <-> says_yes input).
Proof.
  intros Hne. rewrite accepted_spec. split.
  - intros H.
    assert (H' : exists c, (c = 121 \/ c = 89) /\ chomp (first_line input) = [c]).
    { destruct H as [H|H]; rewrite H; eexists; (split; [|reflexivity]); [left|right]; reflexivity. }
    clear H. destruct H' as (c & Hc & H). exists c. split; [exact Hc|].
    destruct (line_split input) as (a & Ha & E).
    assert (F : first_line input = a \/ (exists t, input = a ++ 10 :: t) /\ first_line input = a ++ [10]).
    { destruct E as [->|[t ->]]; [left; apply first_line_none; exact Ha|].
      right. split; [exists t; reflexivity|apply first_line_app; exact Ha]. }
    rewrite <- (rev_involutive (first_line input)) in H. apply chomp_rev in H.
    assert (R : forall x, rev x = [c] -> x = [c]).
    { intros x Ex. rewrite <- (rev_involutive x), Ex. reflexivity. }
    destruct H as [(t & E1 & E2)|[(t & E1 & E3 & E2)|[(t & E1 & E2)|(E1 & E3 & E2)]]].
    + symmetry in E2. apply R in E2. subst t. apply (f_equal (@rev N)) in E1. rewrite rev_involutive in E1. cbn in E1.
      destruct F as [F|[[t F1] F]]; rewrite F in E1.
      * exfalso. apply Ha. rewrite E1. right. right. left. reflexivity.
      * right. right. right. exists t. rewrite F1. change [c; 13; 10] with ([c; 13] ++ [10]) in E1.
        apply app_inj_tail in E1. destruct E1 as [-> _]. reflexivity.
    + symmetry in E2. apply R in E2. subst t. apply (f_equal (@rev N)) in E1. rewrite rev_involutive in E1. cbn in E1.
      destruct F as [F|[[t F1] F]]; rewrite F in E1.
      * exfalso. apply Ha. rewrite E1. right. left. reflexivity.
      * right. right. left. exists t. rewrite F1. change [c; 10] with ([c] ++ [10]) in E1.
        apply app_inj_tail in E1. destruct E1 as [-> _]. reflexivity.
    + symmetry in E2. apply R in E2. subst t. apply (f_equal (@rev N)) in E1. rewrite rev_involutive in E1. cbn in E1.
      destruct F as [F|[[t F1] F]]; rewrite F in E1.
      * destruct E as [->|[t ->]]; [right; left; exact E1|].
        rewrite first_line_app in F by exact Ha. exfalso. apply (f_equal (@length N)) in F. rewrite app_length in F. cbn in F. lia.
      * change [c; 13] with ([c] ++ [13]) in E1. apply app_inj_tail in E1. destruct E1 as [_ E1]. discriminate.
    + symmetry in E2. rewrite rev_involutive in E2.
      destruct F as [F|[[t F1] F]]; rewrite F in *.
      * destruct E as [->|[t ->]]; [left; exact E2|].
        rewrite first_line_app in F by exact Ha. exfalso. apply (f_equal (@length N)) in F. rewrite app_length in F. cbn in F. lia.
      * exfalso. apply (E1 (rev a)). rewrite rev_app_distr. reflexivity.
  - intros (c & Hc & E).
    assert (G : chomp (first_line input) = [c]).
    { destruct Hc as [->| ->]; destruct E as [->|[->|[[t ->]|[t ->]]]]; reflexivity. }
    rewrite G. destruct Hc as [->| ->]; [left|right]; reflexivity.
Qed.

(** What is written *)
Definition index_text (comment : list (list N)) (rows : list index_row) : list N :=
  generate table_state 0 (index_hash comment rows).
Definition config_text (t : tables) : list N :=
  generate pretty_state 0 (config_hash (tb_config_comment t) (tb_sets t)) ++ nl.

Lemma editor_no nfd t input : ~ says_yes input -> editor nfd t input = Run [] question false.
Proof.
  intros H. unfold editor. destruct input as [|c s]; [reflexivity|].
  fold (accepted (chomp (first_line (c :: s)))).
  destruct (accepted (chomp (first_line (c :: s)))) eqn:E; [|reflexivity].
  apply answer_yes in E; [contradiction|discriminate].
Qed.
Lemma editor_yes nfd t input : says_yes input ->
  editor nfd t input =
  let index := (latin_index_outfile, index_text (tb_latin_comment t) (tb_latin t)) in
  let '(text, ok) := write_aliases nfd (map ir_hex (tb_latin t)) in
  let aliases := (latin_alias_outfile, text) in
  let said := question ++ writing latin_index_outfile ++ writing latin_alias_outfile in
  if ok then
    Run [index; aliases; (icon_index_outfile, index_text (tb_icon_comment t) (tb_icons t)); (config_name, config_text t)]
        (said ++ writing icon_index_outfile ++ writing config_name) true
  else Run [index; aliases] said false.
Proof.
  intros H. unfold editor. destruct input as [|c s]; [destruct H as (c & _ & [E|[E|[[t0 E]|[t0 E]]]]); discriminate|].
  fold (accepted (chomp (first_line (c :: s)))).
  replace (accepted (chomp (first_line (c :: s)))) with true; [reflexivity|].
  symmetry. apply answer_yes; [discriminate|exact H].
Qed.

(** ** JSON tables are decoded as they were meant *)
Lemma encode_spec s : encode s = utf8_bytes s.
Proof. unfold encode, utf8_bytes. rewrite flat_map_concat_map. reflexivity. Qed.

Lemma decimal_number s : forall acc, Forall is_digit s -> decimal acc s = number 10 dec_digit acc s.
Proof.
  induction s as [|c s IH]; intros acc F; [reflexivity|]. inversion F as [|? ? Hc Fs]; subst. cbn [decimal number].
  unfold dec_digit. unfold is_digit in Hc. replace ((48 <=? c) && (c <=? 57)) with true by lia. apply IH. exact Fs.
Qed.
Lemma decimal_fmt n : decimal_of (fmt_d n) = Some n.
Proof.
  assert (N10 : decimal 0 (fmt_d n) = Some n).
  { rewrite decimal_number by apply fmt_d_digits. unfold fmt_d.
    rewrite (number_digits 10 dec_digit upper_digit); [|exact dec_upper|apply digits_small; lia].
    f_equal. apply digits_value. lia. }
  unfold decimal_of. destruct (fmt_d_head n) as (d & more & E & _). rewrite E in *. exact N10.
Qed.

Definition int64 (z : Z) : Prop := (- 2 ^ 63 <= z < 2 ^ 63)%Z.
Lemma int_decoded old z : int64 z -> dec_int old (JNum (fmt_int z)) = Ret z.
Proof.
  unfold int64. intros H. unfold dec_int, fmt_int. destruct (Z.ltb_spec z 0).
  - rewrite decimal_fmt. replace (- Z.of_N (Z.to_N (- z)))%Z with z by lia.
    replace ((- 2 ^ 63 <=? z) && (z <? 2 ^ 63))%Z with true by lia. reflexivity.
  - destruct (fmt_d_head (Z.to_N z)) as (d & more & E & Hd & _).
    assert (D := decimal_fmt (Z.to_N z)). rewrite E in *.
    assert (S0 : (match d :: more with 45 :: t0 => (true, t0) | _ => (false, d :: more) end) = (false, d :: more)).
    { unfold is_digit in Hd. destruct d as [|p]; [reflexivity|].
      destruct p as [p|p|]; try reflexivity; destruct p as [p|p|]; try reflexivity; destruct p as [p|p|]; try reflexivity;
      destruct p as [p|p|]; try reflexivity; destruct p as [p|p|]; try reflexivity; destruct p as [p|p|]; try reflexivity; lia. }
    rewrite S0, D. replace (Z.of_N (Z.to_N z)) with z by lia.
    replace ((- 2 ^ 63 <=? z) && (z <? 2 ^ 63))%Z with true by lia. reflexivity.
Qed.
Lemma uint_decoded old n : n < 2 ^ 32 -> dec_uint32 old (JNum (fmt_int (Z.of_N n))) = Ret n.
Proof.
  intros H. unfold dec_uint32. rewrite fmt_int_nonneg by lia. rewrite N2Z.id, decimal_fmt.
  replace (n <? 2 ^ 32) with true by lia. reflexivity.
Qed.

(** A set of the table as the generator has it: strings in UTF-8 *)
Definition set_bytes (g : config_set) : config_set :=
  ConfigSet (utf8_bytes (cg_name g)) (cg_seed g) (utf8_bytes (cg_sprites g)) (cg_size g) (cg_cols g) (cg_gutter g)
    (cg_border g) (utf8_bytes (cg_legal g)) (utf8_bytes (cg_index g)) (utf8_bytes (cg_index_type g))
    (utf8_bytes (cg_aliases g)) (utf8_bytes (cg_trim g)) (utf8_bytes (cg_out g)).
Definition set_ok (g : config_set) : Prop :=
  Forall scalars [cg_name g; cg_sprites g; cg_legal g; cg_index g; cg_index_type g; cg_aliases g; cg_trim g; cg_out g]
  /\ cg_seed g < 2 ^ 32 /\ Forall int64 [cg_size g; cg_cols g; cg_gutter g; cg_border g].
Definition row_bytes (r : index_row) : charspec := CharSpec (utf8_bytes (ir_hex r)) (ir_row r) (ir_col r).
Definition row_ok (r : index_row) : Prop := scalars (ir_hex r) /\ scalars (ir_label r) /\ int64 (ir_row r) /\ int64 (ir_col r).

Lemma step_seed name seed sprites size cols gutter border legal index itype aliases trim out v x : dec_uint32 seed v = Ret x ->
  set_field (ConfigSet name seed sprites size cols gutter border legal index itype aliases trim out) (encode (lit "m3Seed")) v = Ret (ConfigSet name x sprites size cols gutter border legal index itype aliases trim out).
Proof.
  intros H. change (set_field (ConfigSet name seed sprites size cols gutter border legal index itype aliases trim out) (encode (lit "m3Seed")) v)
    with (x <- dec_uint32 seed v ;; Ret (ConfigSet name x sprites size cols gutter border legal index itype aliases trim out)).
  rewrite H. reflexivity.
Qed.
Lemma step_size name seed sprites size cols gutter border legal index itype aliases trim out v x : dec_int size v = Ret x ->
  set_field (ConfigSet name seed sprites size cols gutter border legal index itype aliases trim out) (encode (lit "size")) v = Ret (ConfigSet name seed sprites x cols gutter border legal index itype aliases trim out).
Proof.
  intros H. change (set_field (ConfigSet name seed sprites size cols gutter border legal index itype aliases trim out) (encode (lit "size")) v)
    with (x <- dec_int size v ;; Ret (ConfigSet name seed sprites x cols gutter border legal index itype aliases trim out)).
  rewrite H. reflexivity.
Qed.
Lemma step_cols name seed sprites size cols gutter border legal index itype aliases trim out v x : dec_int cols v = Ret x ->
  set_field (ConfigSet name seed sprites size cols gutter border legal index itype aliases trim out) (encode (lit "cols")) v = Ret (ConfigSet name seed sprites size x gutter border legal index itype aliases trim out).
Proof.
  intros H. change (set_field (ConfigSet name seed sprites size cols gutter border legal index itype aliases trim out) (encode (lit "cols")) v)
    with (x <- dec_int cols v ;; Ret (ConfigSet name seed sprites size x gutter border legal index itype aliases trim out)).
  rewrite H. reflexivity.
Qed.
Lemma step_gutter name seed sprites size cols gutter border legal index itype aliases trim out v x : dec_int gutter v = Ret x ->
  set_field (ConfigSet name seed sprites size cols gutter border legal index itype aliases trim out) (encode (lit "gutter")) v = Ret (ConfigSet name seed sprites size cols x border legal index itype aliases trim out).
Proof.
  intros H. change (set_field (ConfigSet name seed sprites size cols gutter border legal index itype aliases trim out) (encode (lit "gutter")) v)
    with (x <- dec_int gutter v ;; Ret (ConfigSet name seed sprites size cols x border legal index itype aliases trim out)).
  rewrite H. reflexivity.
Qed.
Lemma step_border name seed sprites size cols gutter border legal index itype aliases trim out v x : dec_int border v = Ret x ->
  set_field (ConfigSet name seed sprites size cols gutter border legal index itype aliases trim out) (encode (lit "border")) v = Ret (ConfigSet name seed sprites size cols gutter x legal index itype aliases trim out).
Proof.
  intros H. change (set_field (ConfigSet name seed sprites size cols gutter border legal index itype aliases trim out) (encode (lit "border")) v)
    with (x <- dec_int border v ;; Ret (ConfigSet name seed sprites size cols gutter x legal index itype aliases trim out)).
  rewrite H. reflexivity.
Qed.

Lemma fold_step {A S} (f : S -> A -> res S) a l s s' r : f s a = Ret s' -> fold_res f l s' = r -> fold_res f (a :: l) s = r.
Proof. intros H <-. cbn [fold_res]. rewrite H. reflexivity. Qed.

Lemma set_decoded g : set_ok g -> dec_object set_field zero_set (json_of (set_hash g)) = Ret (set_bytes g).
Proof.
  destruct g as [name seed sprites size cols gutter border legal index itype aliases trim out].
  intros (_ & Hs & Hi). cbn [cg_seed cg_size cg_cols cg_gutter cg_border] in *.
  inversion Hi as [|? ? I1 Hi1]; subst. inversion Hi1 as [|? ? I2 Hi2]; subst. inversion Hi2 as [|? ? I3 Hi3]; subst.
  inversion Hi3 as [|? ? I4 _]; subst.
  unfold set_hash, set_bytes. cbn [json_of map fst snd dec_object].
  cbn [cg_name cg_seed cg_sprites cg_size cg_cols cg_gutter cg_border cg_legal cg_index cg_index_type cg_aliases cg_trim cg_out].
  unfold zero_set. rewrite <- !encode_spec.
  eapply fold_step; [reflexivity|].
  eapply fold_step; [apply step_seed, uint_decoded; exact Hs|].
  eapply fold_step; [reflexivity|].
  eapply fold_step; [apply step_size, int_decoded; exact I1|].
  eapply fold_step; [apply step_cols, int_decoded; exact I2|].
  eapply fold_step; [apply step_gutter, int_decoded; exact I3|].
  eapply fold_step; [apply step_border, int_decoded; exact I4|].
  do 6 (eapply fold_step; [reflexivity|]). reflexivity.
Qed.

Lemma step_row hex row col v x : dec_int row v = Ret x ->
  set_charspec (CharSpec hex row col) (encode (lit "row")) v = Ret (CharSpec hex x col).
Proof.
  intros H. change (set_charspec (CharSpec hex row col) (encode (lit "row")) v) with (x <- dec_int row v ;; Ret (CharSpec hex x col)).
  rewrite H. reflexivity.
Qed.
Lemma step_col hex row col v x : dec_int col v = Ret x ->
  set_charspec (CharSpec hex row col) (encode (lit "col")) v = Ret (CharSpec hex row x).
Proof.
  intros H. change (set_charspec (CharSpec hex row col) (encode (lit "col")) v) with (x <- dec_int col v ;; Ret (CharSpec hex row x)).
  rewrite H. reflexivity.
Qed.
Lemma row_decoded r : row_ok r -> dec_object set_charspec (CharSpec [] 0 0) (json_of (row_hash r)) = Ret (row_bytes r).
Proof.
  intros (_ & _ & H1 & H2). destruct r as [hex row col label]. unfold row_hash, row_bytes in *.
  cbn [json_of map fst snd dec_object ir_hex ir_row ir_col ir_label] in *. rewrite <- encode_spec.
  eapply fold_step; [reflexivity|].
  eapply fold_step; [apply step_row, int_decoded; exact H1|].
  eapply fold_step; [apply step_col, int_decoded; exact H2|].
  eapply fold_step; [reflexivity|]. reflexivity.
Qed.

Lemma map_res_all {A B} (f : A -> res B) (g : A -> B) l : Forall (fun a => f a = Ret (g a)) l -> map_res f l = Ret (map g l).
Proof. induction 1 as [|a l H F IH]; [reflexivity|]. cbn [map_res map]. rewrite H. cbn [bind]. rewrite IH. reflexivity. Qed.

Lemma comments_decoded l : dec_list (dec_string []) (JArr (map json_of (map RStr l))) = Ret (map encode l).
Proof.
  cbn [dec_list]. rewrite map_map. induction l as [|s l IH]; [reflexivity|]. cbn [map map_res json_of dec_string bind].
  cbn [json_of] in IH. rewrite IH. reflexivity.
Qed.

Lemma list_decoded {A B} (dec : json -> res B) (h : A -> rval) (g : A -> B) l :
  Forall (fun a => dec (json_of (h a)) = Ret (g a)) l -> dec_list dec (JArr (map json_of (map h l))) = Ret (map g l).
Proof.
  intros F. cbn [dec_list]. rewrite map_map. induction F as [|a l H F IH]; [reflexivity|].
  cbn [map map_res]. rewrite H. cbn [bind]. rewrite IH. reflexivity.
Qed.

Lemma sets_decoded comment sets : Forall set_ok sets ->
  dec_object set_config [] (json_of (config_hash comment sets)) = Ret (map set_bytes sets).
Proof.
  intros F. unfold config_hash. cbn [json_of map fst snd dec_object].
  eapply fold_step.
  { cbn [fst snd].
    match goal with |- set_config [] ?k ?v = _ =>
      change (set_config [] k v) with (_ <- dec_list (dec_string []) v ;; Ret (@nil config_set)) end.
    rewrite comments_decoded. reflexivity. }
  eapply fold_step; [|reflexivity].
  cbn [fst snd].
  match goal with |- set_config [] ?k ?v = _ =>
    change (set_config [] k v) with (dec_list (dec_object set_field zero_set) v) end.
  apply list_decoded. eapply Forall_impl; [|exact F]. intros g. apply set_decoded.
Qed.
Lemma rows_decoded comment rows : Forall row_ok rows ->
  dec_object set_json_index [] (json_of (index_hash comment rows)) = Ret (map row_bytes rows).
Proof.
  intros F. unfold index_hash. cbn [json_of map fst snd dec_object].
  eapply fold_step.
  { cbn [fst snd].
    match goal with |- set_json_index [] ?k ?v = _ =>
      change (set_json_index [] k v) with (_ <- dec_list (dec_string []) v ;; Ret (@nil charspec)) end.
    rewrite comments_decoded. reflexivity. }
  eapply fold_step; [|reflexivity].
  cbn [fst snd].
  match goal with |- set_json_index [] ?k ?v = _ =>
    change (set_json_index [] k v) with (dec_list (dec_object set_charspec (CharSpec [] 0 0)) v) end.
  apply list_decoded. eapply Forall_impl; [|exact F]. intros g. apply row_decoded.
Qed.

(** ** The strings of the tables *)
Lemma scalars_ascii s : forallb (fun c => c <? 128) s = true -> scalars s.
Proof.
  intros H. unfold scalars. apply Forall_forall. intros c I. rewrite forallb_forall in H. specialize (H c I). lia.
Qed.
Lemma list_ok (l : list rval) : Forall strings_ok l -> strings_ok (RArr l).
Proof. intros F. cbn [strings_ok]. induction F as [|x l H F IH]; [exact I|]. cbn [fold_right]. split; assumption. Qed.
Lemma strs_ok l : Forall scalars l -> strings_ok (RArr (map RStr l)).
Proof. intros F. apply list_ok. apply Forall_map. exact F. Qed.

Lemma row_strings r : row_ok r -> strings_ok (row_hash r).
Proof.
  intros (H1 & H2 & _). unfold row_hash. cbn [strings_ok fold_right fst snd].
  repeat split; try assumption; apply scalars_ascii; reflexivity.
Qed.
Lemma index_strings comment rows : Forall scalars comment -> Forall row_ok rows -> strings_ok (index_hash comment rows).
Proof.
  intros Hc Hr. assert (A := strs_ok _ Hc). assert (B : strings_ok (RArr (map row_hash rows))).
  { apply list_ok. apply Forall_map. eapply Forall_impl; [|exact Hr]. exact row_strings. }
  unfold index_hash. cbn [strings_ok fold_right fst snd] in *.
  repeat split; try assumption; apply scalars_ascii; reflexivity.
Qed.
Lemma set_strings g : set_ok g -> strings_ok (set_hash g).
Proof.
  intros (F & _). repeat match goal with H : Forall scalars (_ :: _) |- _ => inversion_clear H end.
  unfold set_hash. cbn [strings_ok fold_right fst snd].
  repeat split; try assumption; apply scalars_ascii; reflexivity.
Qed.
Lemma config_strings comment sets : Forall scalars comment -> Forall set_ok sets -> strings_ok (config_hash comment sets).
Proof.
  intros Hc Hr. assert (A := strs_ok _ Hc). assert (B : strings_ok (RArr (map set_hash sets))).
  { apply list_ok. apply Forall_map. eapply Forall_impl; [|exact Hr]. exact set_strings. }
  unfold config_hash. cbn [strings_ok fold_right fst snd] in *.
  repeat split; try assumption; apply scalars_ascii; reflexivity.
Qed.

Lemma states_ok : state_ok table_state /\ state_ok pretty_state.
Proof. split; repeat split; unfold json_blank; cbn; repeat constructor; tauto. Qed.

Lemma index_text_read comment rows : Forall scalars comment -> Forall row_ok rows ->
  match parse_json (index_text comment rows) with Some v => dec_object set_json_index [] v | None => Panic end
  = Ret (map row_bytes rows).
Proof.
  intros Hc Hr. unfold index_text.
  assert (E := json_round_trip table_state _ [] [] (proj1 states_ok) (index_strings _ _ Hc Hr) ltac:(constructor) ltac:(constructor)).
  rewrite app_nil_r in E. cbn [app] in E. rewrite E. apply rows_decoded. exact Hr.
Qed.
Lemma config_text_read comment sets : Forall scalars comment -> Forall set_ok sets ->
  match parse_json (generate pretty_state 0 (config_hash comment sets) ++ nl) with Some v => dec_object set_config [] v | None => Panic end
  = Ret (map set_bytes sets).
Proof.
  intros Hc Hr.
  assert (E := json_round_trip pretty_state _ [] nl (proj2 states_ok) (config_strings _ _ Hc Hr) ltac:(constructor)
    ltac:(repeat constructor; cbn; tauto)).
  cbn [app] in E. rewrite E. apply sets_decoded. exact Hr.
Qed.

(** ** Names of clusters *)
Lemma hex_char_digit b d : hex_char b d -> hex_digit b = Some d /\ b <> 45 /\ name_byte b /\ d < 16.
Proof.
  unfold hex_char, hex_digit, name_byte. intros [[H ->]|[[H ->]|[H ->]]].
  - replace ((48 <=? b) && (b <=? 57)) with true by lia. repeat split; lia.
  - replace ((48 <=? b) && (b <=? 57)) with false by lia. replace ((65 <=? b) && (b <=? 70)) with true by lia. repeat split; lia.
  - replace ((48 <=? b) && (b <=? 57)) with false by lia. replace ((65 <=? b) && (b <=? 70)) with false by lia.
    replace ((97 <=? b) && (b <=? 102)) with true by lia. repeat split; lia.
Qed.

Lemma ruby_hex_app s : forall acc t, Forall (fun b => exists d, hex_digit b = Some d) s ->
  ruby_hex acc (s ++ t) = ruby_hex (ruby_hex acc s) t.
Proof.
  induction s as [|b s IH]; intros acc t F; [reflexivity|]. inversion F as [|? ? [d E] Fs]; subst.
  cbn [app ruby_hex]. rewrite E. apply IH. exact Fs.
Qed.
Lemma hex_number_facts s n : hex_number s n ->
  ruby_hex 0 s = n /\ Forall (fun b => exists d, hex_digit b = Some d) s /\ no_dash s /\ Forall name_byte s /\ s <> [] /\
  (n < 2 ^ 32 -> parse_digits 0 s = Some n).
Proof.
  induction 1 as [b d H|s n b d Hs IH H].
  - destruct (hex_char_digit b d H) as (E & N45 & Hn & Hd). cbn [ruby_hex]. rewrite E.
    repeat split; try (constructor; [|constructor]); try assumption; try discriminate.
    + exists d. exact E.
    + intros L. cbn [parse_digits]. rewrite E. replace (16 * 0 + d) with d by lia. replace (2 ^ 32 <=? d) with false by lia. reflexivity.
  - destruct IH as (E1 & F1 & D1 & B1 & N1 & P1). destruct (hex_char_digit b d H) as (E & N45 & Hn & Hd).
    repeat split.
    + rewrite ruby_hex_app by exact F1. rewrite E1. cbn [ruby_hex]. rewrite E. reflexivity.
    + apply Forall_app. split; [exact F1|]. constructor; [exists d; exact E|constructor].
    + apply Forall_app. split; [exact D1|]. constructor; [exact N45|constructor].
    + apply Forall_app. split; [exact B1|]. constructor; [exact Hn|constructor].
    + intros E0. apply app_eq_nil in E0. destruct E0. discriminate.
    + intros L. rewrite parse_digits_app. rewrite P1 by lia. cbn [parse_digits]. rewrite E.
      replace (16 * n + d) with (n * 16 + d) by lia. replace (2 ^ 32 <=? n * 16 + d) with false by lia. reflexivity.
Qed.

Lemma drop_empty_none l : Forall (fun s => s <> []) l -> drop_empty l = l.
Proof. intros F. destruct F as [|s l H F]; [reflexivity|]. destruct s; [contradiction|reflexivity]. Qed.

Lemma cluster_split h c : cluster_name h c ->
  Forall2 hex_number (split_on 45 h) c.
Proof.
  induction 1 as [s c H|s c rest cs H Hr IH].
  - rewrite split_single by apply (hex_number_facts s c H). constructor; [exact H|constructor].
  - rewrite split_cons by apply (hex_number_facts s c H). constructor; assumption.
Qed.

Definition chars_ok (s : list N) : Prop := Forall (fun c => is_char c = true) s.
Lemma cluster_read h c : cluster_name h c -> chars_ok c -> ruby_cluster h = Ret c /\ string_from_hex_gc h = Ret c.
Proof.
  intros Hn Hc. apply cluster_split in Hn. split.
  - unfold ruby_cluster, ruby_split.
    assert (Ne : Forall (fun s : list N => s <> []) (split_on 45 h)).
    { clear Hc. induction Hn as [|s n l cs H F IH]; constructor; [apply (hex_number_facts s n H)|exact IH]. }
    rewrite drop_empty_none by (apply Forall_rev; exact Ne). rewrite rev_involutive.
    clear Ne. induction Hn as [|s n l cs H F IH]; [reflexivity|]. inversion Hc as [|? ? H1 H2]; subst.
    cbn [map_res]. destruct (hex_number_facts s n H) as (-> & _). rewrite H1. cbn [bind]. rewrite (IH H2). reflexivity.
  - unfold string_from_hex_gc. induction Hn as [|s n l cs H F IH]; [reflexivity|]. inversion Hc as [|? ? H1 H2]; subst.
    cbn [map_res]. destruct (hex_number_facts s n H) as (_ & _ & _ & _ & Ne & P).
    assert (E : parse_hex s = Some n). { unfold parse_hex. destruct s; [contradiction|]. apply P. apply char_u32. exact H1. }
    rewrite E. replace (rune n) with n by (unfold rune; rewrite H1; reflexivity). cbn [bind]. rewrite (IH H2). reflexivity.
Qed.
Lemma cluster_is_name h c : cluster_name h c -> name h /\ c <> [].
Proof.
  induction 1 as [s c H|s c rest cs H Hr [[IH1 IH2] IH]].
  - destruct (hex_number_facts s c H) as (_ & _ & _ & B & Ne & _). split; [split; assumption|discriminate].
  - destruct (hex_number_facts s c H) as (_ & _ & _ & B & Ne & _). split; [|discriminate]. split.
    + intros E. apply app_eq_nil in E. destruct E. contradiction.
    + apply Forall_app. split; [exact B|]. constructor; [unfold name_byte; lia|exact IH2].
Qed.

(** The names the script makes *)
Lemma upper_hex_char d : d < 16 -> hex_char (upper_digit d) d.
Proof. intros H. unfold hex_char, upper_digit. destruct (N.ltb_spec d 10); lia. Qed.
Lemma hex_number_digits ds : ds <> [] -> Forall (fun d => d < 16) ds -> hex_number (map upper_digit ds) (value 16 0 ds).
Proof.
  induction ds as [|d ds IH] using rev_ind; intros Hne F; [contradiction|].
  apply Forall_app in F. destruct F as [F1 F2]. inversion F2 as [|? ? Hd _]; subst.
  assert (E : forall acc, value 16 acc (ds ++ [d]) = value 16 acc ds * 16 + d).
  { clear. induction ds as [|x ds IH]; intros acc; [reflexivity|]. cbn [app value]. apply IH. }
  rewrite E, map_app. cbn [map]. destruct ds as [|x ds].
  - cbn [map app value]. replace (0 * 16 + d) with d by lia. constructor. apply upper_hex_char. exact Hd.
  - apply hn_more; [|apply upper_hex_char; exact Hd]. apply IH; [discriminate|exact F1].
Qed.
Lemma fmt_X_number n : hex_number (fmt_X n) n.
Proof.
  unfold fmt_X. assert (H := hex_number_digits (digits 16 n) (digits_nonempty 16 n) (digits_small 16 n ltac:(lia))).
  rewrite (digits_value 16 n) in H by lia. exact H.
Qed.
Lemma ruby_name c : c <> [] -> cluster_name (ruby_hex_name c) c.
Proof.
  unfold ruby_hex_name. induction c as [|a c IH]; intros H; [contradiction|]. cbn [map join].
  destruct c as [|b c]; [constructor; apply fmt_X_number|]. cbn [map] in *. cbn [app].
  apply cn_more; [apply fmt_X_number|]. apply IH. discriminate.
Qed.

(** ** The alias file *)
Definition differs (nfd : list N -> list N) (c : list N) : bool :=
  if list_eq_dec N.eq_dec c (nfd c) then false else true.

Lemma encode_name h : Forall name_byte h -> encode h = h.
Proof.
  induction 1 as [|b h H F IH]; [reflexivity|]. unfold encode in *. cbn [flat_map]. rewrite IH.
  unfold utf8_rune. unfold name_byte in H. replace (b <? 0x80) with true by lia. reflexivity.
Qed.
Lemma encode_one_line s : ~ In 10 s -> SpecLines.one_line (encode s).
Proof.
  unfold SpecLines.one_line, encode. intros H I. apply in_flat_map in I. destruct I as (c & Ic & I). apply H.
  assert (c = 10); [|subst; exact Ic]. revert I. unfold utf8_rune.
  destruct (N.ltb_spec c 0x80); [intros [I|[]]; exact I|].
  destruct (N.ltb_spec c 0x800); [intros [I|[I|[]]]; lia|].
  destruct (N.ltb_spec c 0x10000); intros I; cbn [In] in I; lia.
Qed.

(** A line without its newline *)
Definition alias_line_text (h c hD cD : list N) : list N :=
  h ++ lit " " ++ hD ++ lit "   # nfc: [" ++ h ++ lit ", " ++ encode c
  ++ lit "],  nfd: [" ++ hD ++ lit ", " ++ encode cD ++ lit "]".
Lemma one_line_app a b : SpecLines.one_line a -> SpecLines.one_line b -> SpecLines.one_line (a ++ b).
Proof. unfold SpecLines.one_line. intros A B I. apply in_app_or in I. tauto. Qed.
Lemma name_one_line h : name h -> SpecLines.one_line h.
Proof.
  intros [_ F] I. rewrite Forall_forall in F. specialize (F 10 I). unfold name_byte in F. lia.
Qed.
Lemma lit_one_line s : forallb (fun c => negb (c =? 10)) (lit s) = true -> SpecLines.one_line (lit s).
Proof. intros H I. rewrite forallb_forall in H. specialize (H 10 I). discriminate. Qed.

Lemma alias_line_with h c hD cD : name h -> name hD -> ~ In 10 c -> ~ In 10 cD ->
  line_with (h ++ 32 :: hD) (alias_line_text h c hD cD).
Proof.
  intros Hh HD Hc HcD.
  exists [], (lit "   "), (35 :: lit " nfc: [" ++ h ++ lit ", " ++ encode c ++ lit "],  nfd: [" ++ hD ++ lit ", " ++ encode cD ++ lit "]").
  split; [exists []; split; [constructor|reflexivity]|].
  split; [exists [32; 32; 32]; split; [repeat constructor; cbn; tauto|reflexivity]|].
  split.
  - right. eexists. split; [reflexivity|].
    repeat (apply one_line_app); try (apply lit_one_line; reflexivity); try (apply name_one_line; assumption);
      apply encode_one_line; assumption.
  - unfold alias_line_text. cbn [app]. rewrite <- !app_assoc. reflexivity.
Qed.

Lemma aliases_written nfd hexes cls : Forall2 cluster_name hexes cls -> Forall chars_ok cls ->
  write_aliases nfd hexes =
  (flat_map (fun l => l ++ nl)
     (map (fun hc => alias_line_text (fst hc) (snd hc) (ruby_hex_name (nfd (snd hc))) (nfd (snd hc)))
        (filter (fun hc => differs nfd (snd hc)) (combine hexes cls))), true).
Proof.
  intros F. induction F as [|h c hexes cls Hn F IH]; intros Hc; [reflexivity|].
  inversion Hc as [|? ? H1 H2]; subst. cbn [write_aliases combine filter].
  destruct (cluster_read h c Hn H1) as [-> _]. rewrite (IH H2). cbn [fst snd].
  assert (D : differs nfd c = if list_eq_dec N.eq_dec c (nfd c) then false else true) by reflexivity. rewrite D.
  destruct (list_eq_dec N.eq_dec c (nfd c)) as [E|E]; [reflexivity|]. cbn [map flat_map fst snd].
  unfold alias_text, alias_line_text. destruct (cluster_is_name h c Hn) as [[_ B] _].
  rewrite (encode_name h B). rewrite <- !app_assoc. reflexivity.
Qed.

Lemma file_lines lines : file (lines ++ [[]]) = flat_map (fun l => l ++ nl) lines.
Proof.
  induction lines as [|l lines IH]; [reflexivity|]. cbn [app flat_map file]. rewrite <- IH.
  destruct (lines ++ [[]]) eqn:E; [destruct lines; discriminate|].
  rewrite <- app_assoc. reflexivity.
Qed.

(** What is assumed of the clusters and of their decompositions *)
Definition cluster_ok (nfd : list N -> list N) (c : list N) : Prop :=
  scalars c /\ scalars (nfd c) /\ nfd c <> [] /\ ~ In 10 c /\ ~ In 10 (nfd c).
Lemma scalars_chars s : scalars s <-> chars_ok s.
Proof.
  unfold scalars, chars_ok, is_char. split; intros F; eapply Forall_impl; try exact F; cbn; intros c H; lia.
Qed.

Lemma aliases_lines nfd hexes cls : Forall2 cluster_name hexes cls -> Forall (cluster_ok nfd) cls ->
  alias_lines (map (fun hc => (fst hc, ruby_hex_name (nfd (snd hc)))) (filter (fun hc => differs nfd (snd hc)) (combine hexes cls)))
    (map (fun hc => alias_line_text (fst hc) (snd hc) (ruby_hex_name (nfd (snd hc))) (nfd (snd hc)))
        (filter (fun hc => differs nfd (snd hc)) (combine hexes cls)) ++ [[]]).
Proof.
  intros F. induction F as [|h c hexes cls Hn F IH]; intros Hc.
  - cbn [combine filter map app]. apply al_skip; [|constructor].
    exists [], [], []. repeat split; try (exists []; split; [constructor|reflexivity]). left. reflexivity.
  - inversion Hc as [|? ? H1 H2]; subst. cbn [combine filter snd].
    destruct (differs nfd c) eqn:E; [|apply IH; exact H2]. cbn [map app fst snd].
    destruct H1 as (S1 & S2 & N1 & L1 & L2).
    destruct (cluster_is_name _ _ (ruby_name (nfd c) N1)) as [ND _].
    destruct (cluster_is_name _ _ Hn) as [NC _].
    apply al_pair; [exact NC|exact ND| |apply IH; exact H2].
    apply alias_line_with; assumption.
Qed.

Lemma last_line (l : list (list N)) : l ++ [[]] <> [].
Proof. destruct l; discriminate. Qed.
Lemma aliases_back nfd hexes cls : Forall2 cluster_name hexes cls -> Forall (cluster_ok nfd) cls ->
  snd (write_aliases nfd hexes) = true /\
  emoji_aliases_of (fst (write_aliases nfd hexes)) =
  map (fun hc => GCAlias (fst hc) (ruby_hex_name (nfd (snd hc)))) (filter (fun hc => differs nfd (snd hc)) (combine hexes cls)).
Proof.
  intros F Hc.
  assert (Hch : Forall chars_ok cls). { eapply Forall_impl; [|exact Hc]. intros c (H & _). apply scalars_chars. exact H. }
  rewrite (aliases_written nfd hexes cls F Hch). cbn [fst snd]. split; [reflexivity|].
  rewrite <- file_lines. rewrite (aliases_read _ _ (last_line _) (aliases_lines nfd hexes cls F Hc)).
  rewrite map_map. reflexivity.
Qed.

(** The aliases as clusters *)
Definition alias_clusters (a : gcalias) : res (list N) * res (list N) :=
  (string_from_hex_gc (canon_hex a), string_from_hex_gc (alias_hex a)).
Lemma aliases_meant nfd hexes cls : Forall2 cluster_name hexes cls -> Forall (cluster_ok nfd) cls ->
  map alias_clusters (emoji_aliases_of (fst (write_aliases nfd hexes)))
  = map (fun c => (Ret c, Ret (nfd c))) (filter (differs nfd) cls).
Proof.
  intros F Hc. destruct (aliases_back nfd hexes cls F Hc) as [_ ->]. rewrite map_map.
  induction F as [|h c hexes cls Hn F IH]; [reflexivity|]. inversion Hc as [|? ? H1 H2]; subst.
  cbn [combine filter snd]. destruct (differs nfd c) eqn:E; [|apply IH; exact H2]. cbn [map fst snd].
  rewrite (IH H2). f_equal. unfold alias_clusters. cbn [canon_hex alias_hex].
  destruct H1 as (S1 & S2 & N1 & _). apply scalars_chars in S1, S2.
  destruct (cluster_read h c Hn S1) as [_ ->].
  destruct (cluster_read _ _ (ruby_name (nfd c) N1) S2) as [_ ->]. reflexivity.
Qed.

(** ** A whole run *)
Definition strings_fine (t : tables) : Prop :=
  Forall scalars (tb_config_comment t) /\ Forall scalars (tb_latin_comment t) /\ Forall scalars (tb_icon_comment t).
Definition tables_ok (t : tables) : Prop :=
  strings_fine t /\ Forall set_ok (tb_sets t) /\ Forall row_ok (tb_latin t) /\ Forall row_ok (tb_icons t).

(** The files are there *)
Definition holds_files (fl : files) (writes : list (list N * list N)) : Prop :=
  forall name text, In (name, text) writes -> fl name = Some text.

Lemma run_reads nfd t cls input fl : tables_ok t ->
  Forall2 cluster_name (map ir_hex (tb_latin t)) cls -> Forall (cluster_ok nfd) cls -> says_yes input ->
  holds_files fl (r_writes (editor nfd t input)) ->
  r_ok (editor nfd t input) = true /\
  new_config fl (lit "config.json") = Ret (map set_bytes (tb_sets t)) /\
  (forall g, cg_index g = lit "src_data/latin_index.json" -> read_json_cluster_map fl g = Ret (map row_bytes (tb_latin t))) /\
  (forall g, cg_index g = lit "src_data/icon_index.json" -> read_json_cluster_map fl g = Ret (map row_bytes (tb_icons t))) /\
  (forall g, cg_aliases g = lit "src_data/latin_aliases.txt" -> exists al,
     grapheme_cluster_aliases fl g = Ret al /\
     map alias_clusters al = map (fun c => (Ret c, Ret (nfd c))) (filter (differs nfd) cls)).
Proof.
  intros ((C1 & C2 & C3) & Hs & Hl & Hi) Hn Hc Hy Hf.
  destruct (aliases_back nfd _ cls Hn Hc) as [Hok _].
  assert (Hm := aliases_meant nfd _ cls Hn Hc).
  rewrite (editor_yes nfd t input Hy) in *.
  destruct (write_aliases nfd (map ir_hex (tb_latin t))) as [text ok]. cbn [fst snd] in Hok, Hm. subst ok.
  cbv zeta in *. cbn [r_ok r_writes] in *. split; [reflexivity|].
  assert (F1 := Hf _ _ (or_introl eq_refl)).
  assert (F2 := Hf _ _ (or_intror (or_introl eq_refl))).
  assert (F3 := Hf _ _ (or_intror (or_intror (or_introl eq_refl)))).
  assert (F4 := Hf _ _ (or_intror (or_intror (or_intror (or_introl eq_refl))))).
  split.
  { unfold new_config, read_file. change (lit "config.json") with config_name. rewrite F4. cbn [bind].
    unfold config_text. exact (config_text_read _ _ C1 Hs). }
  split.
  { intros g Hg. unfold read_json_cluster_map, read_file. rewrite Hg. change (lit "src_data/latin_index.json") with latin_index_outfile.
    rewrite F1. cbn [bind]. exact (index_text_read _ _ C2 Hl). }
  split.
  { intros g Hg. unfold read_json_cluster_map, read_file. rewrite Hg. change (lit "src_data/icon_index.json") with icon_index_outfile.
    rewrite F3. cbn [bind]. exact (index_text_read _ _ C3 Hi). }
  intros g Hg. exists (emoji_aliases_of text). split; [|exact Hm].
  unfold grapheme_cluster_aliases, read_file. rewrite Hg.
  change (match lit "src_data/latin_aliases.txt" with [] => Ret [] | b :: l => text0 <- match fl (b :: l) with Some text0 => Ret text0 | None => Panic end ;; Ret (emoji_aliases_of text0) end)
    with (text0 <- match fl latin_alias_outfile with Some text0 => Ret text0 | None => Panic end ;; Ret (emoji_aliases_of text0)).
  rewrite F2. reflexivity.
Qed.

(** Only the decompositions of the clusters in the table matter *)
Lemma write_aliases_ext nfd nfd' hexes cls : Forall2 cluster_name hexes cls -> Forall chars_ok cls ->
  (forall c, In c cls -> nfd c = nfd' c) -> write_aliases nfd hexes = write_aliases nfd' hexes.
Proof.
  intros F. induction F as [|h c hexes cls Hn F IH]; intros Hc He; [reflexivity|].
  inversion Hc as [|? ? H1 H2]; subst. cbn [write_aliases]. destruct (cluster_read h c Hn H1) as [-> _].
  rewrite (He c (or_introl eq_refl)). rewrite (IH H2); [reflexivity|]. intros c' I. apply He. right. exact I.
Qed.
Lemma editor_ext nfd nfd' t cls input : Forall2 cluster_name (map ir_hex (tb_latin t)) cls -> Forall chars_ok cls ->
  (forall c, In c cls -> nfd c = nfd' c) -> says_yes input -> editor nfd t input = editor nfd' t input.
Proof.
  intros F Hc He Hy. rewrite !(editor_yes _ t input Hy). rewrite (write_aliases_ext nfd nfd' _ cls F Hc He). reflexivity.
Qed.
Lemma editor_same nfd t input input' : says_yes input -> says_yes input' -> editor nfd t input = editor nfd t input'.
Proof. intros H H'. rewrite !editor_yes by assumption. reflexivity. Qed.
