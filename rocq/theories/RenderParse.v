(** * The generator's text, read back *)
From Coq Require Import ZArith String Ascii Permutation.
From Verif Require Import Prim PrimFacts Str FontDefs Codegen SortProofs CgIndex Render SpecRust RenderLex.
Local Open Scope N_scope.
Local Open Scope list_scope.
Local Notation length := List.length.

(** ** Readers *)
Lemma same_eq a b : same a b = true <-> a = b.
Proof. unfold same. destruct (list_eq_dec N.eq_dec a b); split; congruence. Qed.
Lemma same_refl a : same a a = true.
Proof. apply same_eq. reflexivity. Qed.

Lemma tok_eqb_refl a : tok_eqb a a = true.
Proof. destruct a as [w|c]; cbn [tok_eqb]; [|apply N.eqb_refl]. destruct (list_eq_dec N.eq_dec w w); congruence. Qed.
Lemma expect_app p ts : expect p (p ++ ts) = Some ts.
Proof. induction p as [|a p IH]; [reflexivity|]. cbn [app expect]. rewrite tok_eqb_refl. exact IH. Qed.

Lemma word_ok w ts : word (Word w :: ts) = Some (w, ts).
Proof. reflexivity. Qed.
Lemma int_ok w n ts : literal w = Some n -> int (Word w :: ts) = Some (n, ts).
Proof. intros E. cbn [int]. rewrite E. reflexivity. Qed.

(** A list of numbers and the words they are written with *)
Definition number_toks (ws : list str) : list tok := flat_map (fun w => [Word w; Sym 44]) ws.

Lemma ints_ok vs ws ts : Forall2 (fun w v => literal w = Some v) ws vs ->
  ints (number_toks ws ++ Sym 93 :: ts) = (vs, Sym 93 :: ts).
Proof.
  intros F. induction F as [|w v ws vs E F IH]; [reflexivity|].
  cbn [number_toks flat_map app ints]. fold (number_toks ws). rewrite E. cbn [N.eqb Pos.eqb].
  rewrite IH. reflexivity.
Qed.

(** A list of things and the tokens they are written with *)
Lemma many_ok {A} (p : reader A) (l : list (A * list tok)) ts :
  Forall (fun ae => forall ts, p (snd ae ++ ts) = Some (fst ae, ts)) l -> p ts = None ->
  forall fuel, (length l <= fuel)%nat ->
  many fuel p (flat_map snd l ++ ts) = (map fst l, ts).
Proof.
  intros F N. induction F as [|[a e] l H F IH]; intros fuel L.
  - destruct fuel as [|k]; [reflexivity|]. cbn [flat_map app many]. rewrite N. reflexivity.
  - destruct fuel as [|k]; [simpl in L; lia|]. cbn [flat_map many map fst snd] in *.
    rewrite <- app_assoc, H. rewrite IH by (simpl in L; lia). reflexivity.
Qed.
Lemma many_of_ok {A} (p : reader A) (l : list (A * list tok)) ts :
  Forall (fun ae => snd ae <> [] /\ forall ts, p (snd ae ++ ts) = Some (fst ae, ts)) l -> p ts = None ->
  many_of p (flat_map snd l ++ ts) = (map fst l, ts).
Proof.
  intros F N. unfold many_of. apply many_ok; [|exact N|].
  - eapply Forall_impl; [|exact F]. intros ae H. apply H.
  - clear N. rewrite app_length. induction F as [|[a e] l [H _] F IH]; cbn [flat_map length]; [lia|].
    rewrite app_length. cbn [snd] in *. destruct e; [contradiction|]. simpl. lia.
Qed.

(** ** One attempt *)
Definition attempt_toks (a : attempt) : list tok :=
  rust "if let Some((offset, bytes_used)) =" ++ Word (a_fn a) :: rust "(cluster," ++ Word (fmt_d (a_limit a))
  :: rust ") { Ok((GlyphData::" ++ Word (a_variant a) :: rust "(offset), bytes_used)) } else".

Lemma read_attempt_ok a ts : read_attempt (attempt_toks a ++ ts) = Some (a, ts).
Proof.
  unfold read_attempt, attempt_toks. rewrite <- app_assoc, expect_app. cbn [app]. rewrite word_ok.
  rewrite <- app_assoc, expect_app. cbn [app]. rewrite (int_ok _ _ _ (literal_dec _)).
  rewrite <- app_assoc, expect_app. cbn [app]. rewrite word_ok. rewrite expect_app.
  destruct a; reflexivity.
Qed.

Ltac piece a ts m' s := rewrite (toks_piece _ a ts m' s _ eq_refl) by (vm_compute; reflexivity).

Lemma toks_try name k n s : is_word name = true -> is_word (find_ident k) = true ->
  toks Ground (try_text name k n ++ s) = attempt_toks (Attempt (find_ident k) n name) ++ toks Ground s.
Proof.
  intros Hn Hk. unfold try_text, attempt_toks. cbn [a_fn a_limit a_variant].
  set (id := find_ident k) in *. clearbody id. rewrite <- !app_assoc. cbn [app].
  piece (lit "if let Some((offset, bytes_used)) = ") (rust "if let Some((offset, bytes_used)) =") Ground
    (id ++ lit "(cluster, " ++ fmt_d n ++ lit ") {" ++ nl ++ lit "                Ok((GlyphData::" ++ name
     ++ lit "(offset), bytes_used))" ++ nl ++ lit "            } else " ++ s).
  f_equal. rewrite toks_is_word; [|exact Hk|reflexivity]. rewrite <- !app_assoc. cbn [app]. f_equal.
  piece (lit "(cluster, ") (rust "(cluster,") Ground
    (fmt_d n ++ lit ") {" ++ nl ++ lit "                Ok((GlyphData::" ++ name
     ++ lit "(offset), bytes_used))" ++ nl ++ lit "            } else " ++ s).
  rewrite <- !app_assoc. cbn [app].
  f_equal. rewrite toks_is_word; [|apply is_word_d|reflexivity]. f_equal.
  piece (lit ") {" ++ nl ++ lit "                Ok((GlyphData::") (rust ") { Ok((GlyphData::") Ground
    (name ++ lit "(offset), bytes_used))" ++ nl ++ lit "            } else " ++ s).
  f_equal. rewrite toks_is_word; [|exact Hn|reflexivity]. cbn [app]. f_equal.
  piece (lit "(offset), bytes_used))" ++ nl ++ lit "            } else ") (rust "(offset), bytes_used)) } else") Ground s.
  reflexivity.
Qed.

(** ** One arm *)
Lemma toks_word_eq w s s0 : s0 = w ++ s -> is_word w = true -> ends_word s = true ->
  toks Ground s0 = Word w :: toks Ground s.
Proof. intros ->. apply toks_is_word. Qed.

Ltac pcm a ts m := match goal with |- toks Ground ?s0 = _ =>
  erewrite (toks_piece Ground a ts m _ s0 eq_refl) by (vm_compute; reflexivity) end.
Ltac pc a ts := pcm a ts Ground.
Ltac wd w := match goal with |- toks Ground ?s0 = _ =>
  erewrite (toks_word_eq w _ s0 eq_refl); [|try assumption|reflexivity] end.

Definition arm_toks (r : arm) : list tok :=
  Word (lit "0x" ++ fmt_X (r_low r)) :: rust "..=" ++ Word (lit "0x" ++ fmt_X (r_high r)) :: rust "=> {"
  ++ flat_map attempt_toks (r_attempts r) ++ rust "{ Err(NoGlyphErr) } }".

Lemma flat_map_pairs {A B} (f : A -> list B) (l : list A) : flat_map f l = flat_map snd (map (fun a => (a, f a)) l).
Proof. induction l as [|a l IH]; [reflexivity|]. cbn [flat_map map snd]. rewrite IH. reflexivity. Qed.

Lemma read_arm_ok r ts : read_arm (arm_toks r ++ ts) = Some (r, ts).
Proof.
  unfold read_arm, arm_toks. cbn [app]. rewrite (int_ok _ _ _ (literal_X _)).
  rewrite <- app_assoc, expect_app. cbn [app]. rewrite (int_ok _ _ _ (literal_X _)).
  rewrite <- app_assoc, expect_app, <- app_assoc. rewrite flat_map_pairs.
  rewrite many_of_ok; [| |reflexivity].
  - rewrite expect_app, map_map. cbn [fst]. rewrite map_id. destruct r; reflexivity.
  - rewrite Forall_map, Forall_forall. intros a _. cbn [fst snd].
    split; [unfold attempt_toks; discriminate|apply read_attempt_ok].
Qed.

Definition arm_of (name : str) (kb : ublock * block_index) : arm :=
  Arm (fst (fst kb)) (snd (fst kb))
    (map (fun n => Attempt (find_ident (fst kb)) n name) (cluster_length_list (snd kb))).

Lemma toks_arm name k dex s : is_word name = true -> is_word (find_ident k) = true -> dex <> [] ->
  toks Ground (arm_text name (k, dex) ++ s) = arm_toks (arm_of name (k, dex)) ++ toks Ground s.
Proof.
  intros Hn Hk Hd. unfold arm_text. destruct dex as [|e dex]; [contradiction|].
  unfold arm_toks, arm_of. cbn [r_low r_high r_attempts fst snd].
  set (lens := cluster_length_list (e :: dex)). clearbody lens.
  rewrite <- !app_assoc.
  wd (lit "0x" ++ fmt_X (fst k)); [|apply is_word_X]. cbn [app]. f_equal.
  pc (lit "..=") (rust "..="). rewrite <- !app_assoc. f_equal.
  wd (lit "0x" ++ fmt_X (snd k)); [|apply is_word_X]. cbn [app]. f_equal.
  pc (lit " => {" ++ nl ++ lit "            ") (rust "=> {"). rewrite <- !app_assoc. f_equal.
  induction lens as [|n lens IH].
  - cbn [flat_map map app].
    pc (lit "{" ++ nl ++ lit "                Err(NoGlyphErr)" ++ nl ++ lit "            }" ++ nl
      ++ lit "        }" ++ nl ++ lit "        ") (rust "{ Err(NoGlyphErr) } }"). reflexivity.
  - cbn [flat_map map]. rewrite <- !app_assoc. rewrite toks_try by assumption. f_equal. exact IH.
Qed.

(** ** The tables *)
Lemma toks_entries {A} (txt w : A -> str) (b : list A) s :
  (forall e s, toks Ground (txt e ++ nl ++ s) = Word (w e) :: Sym 44 :: toks Ground s) ->
  toks Ground (join (nl ++ lit "    ") (map txt b) ++ nl ++ s) = number_toks (map w b) ++ toks Ground s.
Proof.
  intros H. induction b as [|e b IH]; [apply toks_nl|].
  cbn [map join]. destruct (map txt b) as [|t ts] eqn:E.
  - rewrite H. destruct b; [reflexivity|discriminate].
  - rewrite <- !app_assoc. rewrite H. cbn [number_toks flat_map app]. fold (number_toks (map w b)). f_equal. f_equal.
    change (lit "    ") with (repeat 32 4). rewrite toks_spaces. exact IH.
Qed.

Section Printable.
  Variable printable : N -> bool.
  Hypothesis Hp : printable 10 = false.

  Lemma toks_label c s : toks Comment (label_for_cluster printable c ++ nl ++ s) = toks Ground s.
  Proof. rewrite toks_comment by (apply label_one_line; exact Hp). apply toks_comment_end. Qed.

  Lemma toks_hashes b s :
    toks Ground (code_for_hashes printable b ++ nl ++ s)
    = number_toks (map (fun e => lit "0x" ++ fmt_08X (e_hash e)) b) ++ toks Ground s.
  Proof.
    unfold code_for_hashes. apply toks_entries. clear b s. intros e s. rewrite <- !app_assoc.
    wd (lit "0x" ++ fmt_08X (e_hash e)); [|apply is_word_08X]. f_equal.
    pcm (lit ",  // ") [Sym 44] Comment.
    cbn [app]. f_equal. apply toks_label.
  Qed.

  Lemma toks_offsets b s :
    toks Ground (code_for_offsets printable b ++ nl ++ s)
    = number_toks (map (fun e => fmt_d (e_offset e)) b) ++ toks Ground s.
  Proof.
    unfold code_for_offsets. apply toks_entries. clear b s. intros e s. unfold space_pad. rewrite <- !app_assoc.
    rewrite toks_is_word; [|apply is_word_d|reflexivity]. f_equal.
    pc (lit ",") [Sym 44]. cbn [app]. f_equal. rewrite toks_spaces.
    pcm (lit " // ") (@nil tok) Comment.
    apply toks_label.
  Qed.

  (** ** DATA *)
  Definition word_text (w : N) : str := lit "0x" ++ fmt_08x w.

  Lemma word_text_word w : is_word (word_text w) = true.
  Proof. apply is_word_08x. Qed.

  Lemma toks_join_words ws s : ws <> [] ->
    toks Ground (join (lit ", ") (map word_text ws) ++ lit "," ++ s) = number_toks (map word_text ws) ++ toks Ground s.
  Proof.
    induction ws as [|w ws IH]; intros H; [contradiction|]. cbn [map join].
    pose proof (word_text_word w) as Hw. set (t := word_text w) in *. clearbody t.
    destruct ws as [|w' ws].
    - cbn [map]. rewrite toks_is_word; [|exact Hw|reflexivity]. cbn [number_toks flat_map app]. f_equal.
      pc (lit ",") [Sym 44]. reflexivity.
    - cbn [map] in *. rewrite <- !app_assoc. rewrite toks_is_word; [|exact Hw|reflexivity].
      cbn [number_toks flat_map app]. f_equal. pc (lit ", ") [Sym 44]. cbn [app]. f_equal.
      apply IH. discriminate.
  Qed.

  Lemma toks_word_lines fuel : forall ws s, (length ws <= fuel)%nat ->
    toks Ground (word_lines fuel ws ++ nl ++ s) = number_toks (map word_text ws) ++ toks Ground s.
  Proof.
    induction fuel as [|k IH]; intros ws s L.
    - destruct ws; [|simpl in L; lia]. apply toks_nl.
    - cbn [word_lines]. destruct ws as [|w ws]; [apply toks_nl|].
      set (l := w :: ws) in *. fold word_text.
      assert (E : map word_text l = map word_text (firstn 8 l) ++ map word_text (skipn 8 l))
        by (rewrite <- map_app, firstn_skipn; reflexivity).
      assert (N : firstn 8 l <> []) by (unfold l; discriminate).
      assert (M : (length (skipn 8 l) <= k)%nat) by (rewrite skipn_length; unfold l in *; simpl length in *; lia).
      rewrite E. clearbody l. clear E L. set (a := firstn 8 l) in *. set (b := skipn 8 l) in *. clearbody a b.
      unfold number_toks at 1. rewrite flat_map_app. fold (number_toks (map word_text a)).
      fold (number_toks (map word_text b)). rewrite <- !app_assoc. rewrite toks_join_words by exact N. f_equal.
      destruct b as [|x b]; [apply toks_nl|]. rewrite <- !app_assoc. rewrite toks_nl.
      change (lit "    ") with (repeat 32 4). rewrite toks_spaces. apply IH. exact M.
  Qed.

  Lemma toks_pattern ws comment s : one_line comment = true ->
    toks Ground (convert_pattern_to_rust ws comment ++ s) = number_toks (map word_text ws) ++ toks Ground s.
  Proof.
    intros H. unfold convert_pattern_to_rust. rewrite <- !app_assoc.
    pcm (lit "    // ") (@nil tok) Comment. cbn [app].
    rewrite toks_comment by exact H. rewrite toks_comment_end.
    change (lit "    ") with (repeat 32 4). rewrite toks_spaces. apply toks_word_lines. lia.
  Qed.

  (** GS.Code holds the same words *)
  Lemma number_toks_app a b : number_toks (a ++ b) = number_toks a ++ number_toks b.
  Proof. apply flat_map_app. Qed.

  Lemma toks_code seed pl : forall dataLen g g', fold_res (add_pattern seed) pl g = Ret g' ->
    exists code, code_text printable dataLen pl = Ret code /\
      gs_code g' = gs_code g ++ flat_map bp_words pl /\
      gs_len g' = gs_len g + N.of_nat (length (flat_map bp_words pl)) /\
      forall s, toks Ground (code ++ s) = number_toks (map word_text (flat_map bp_words pl)) ++ toks Ground s.
  Proof.
    induction pl as [|p pl IH]; intros dataLen g g' E.
    - injection E as <-. exists []. cbn [flat_map]. rewrite app_nil_r. simpl length. rewrite N.add_0_r. repeat split; reflexivity.
    - cbn [fold_res] in E. apply bind_ret_inv in E. destruct E as (g1 & E1 & E2).
      unfold add_pattern in E1. apply bind_ret_inv in E1. destruct E1 as (cl & Ec & E1).
      apply bind_ret_inv in E1. destruct E1 as (ix & Ei & E1). injection E1 as <-.
      destruct (IH (dataLen + N.of_nat (length (bp_words p))) _ _ E2) as (code & H1 & H2 & H3 & H4).
      cbn [gs_code gs_len] in H2, H3. cbn [code_text]. rewrite Ec. cbn [bind]. rewrite H1. cbn [bind].
      eexists. split; [reflexivity|]. cbn [flat_map]. rewrite app_length, Nat2N.inj_add.
      split; [rewrite H2, app_assoc; reflexivity|]. split; [lia|]. intros s.
      rewrite <- app_assoc. rewrite toks_pattern.
      + rewrite H4, map_app, number_toks_app, app_assoc. reflexivity.
      + rewrite !one_line_app. rewrite (hex_one_line _ _ Ec), (label_one_line _ _ Hp).
        rewrite (is_word_one_line _ (is_word_d _)). reflexivity.
  Qed.

  (** ** Functions and tables *)
  Definition item_toks (i : item) (ws : list str) : list tok :=
    match i with
    | FnItem f h o =>
        rust "fn" ++ Word f :: rust "(cluster: &str, limit: u32) -> Option<(usize, usize)> {
                               let (key, bytes_hashed) = super::murmur3(cluster, M3_SEED, limit);
                               match" ++ Word h :: rust ".binary_search(&key) { Ok(index) => return Some((" ++ Word o
        :: rust "[index], bytes_hashed)), _ => None, } }"
    | ConstItem c ty n _ =>
        rust "const" ++ Word c :: rust ": [" ++ Word ty :: rust ";" ++ Word (fmt_d n) :: rust "] = [" ++ number_toks ws
        ++ rust "];"
    end.
  Definition item_values (i : item) : list N := match i with FnItem _ _ _ => [] | ConstItem _ _ _ l => l end.

  Lemma read_item_ok i ws ts : Forall2 (fun w v => literal w = Some v) ws (item_values i) ->
    read_item (item_toks i ws ++ ts) = Some (i, ts).
  Proof.
    intros F. unfold read_item. destruct i as [f h o|c ty n l]; cbn [item_toks item_values] in *.
    - rewrite <- app_assoc, expect_app. cbn [app]. rewrite word_ok.
      rewrite <- app_assoc, expect_app. cbn [app]. rewrite word_ok.
      rewrite <- app_assoc, expect_app. cbn [app]. rewrite word_ok. rewrite expect_app. reflexivity.
    - match goal with |- match expect (rust "fn") ?t with _ => _ end = _ =>
        assert (E : expect (rust "fn") t = None) by reflexivity; rewrite E; clear E end.
      rewrite <- app_assoc, expect_app. cbn [app]. rewrite word_ok.
      rewrite <- app_assoc, expect_app. cbn [app]. rewrite word_ok.
      rewrite <- app_assoc, expect_app. cbn [app]. rewrite (int_ok _ _ _ (literal_dec _)).
      rewrite <- app_assoc, expect_app. rewrite <- app_assoc.
      assert (E : rust "];" = [Sym 93; Sym 59]) by (vm_compute; reflexivity). rewrite E. cbn [app].
      rewrite (ints_ok l ws _ F). rewrite <- E. change (Sym 93 :: Sym 59 :: ts) with ([Sym 93; Sym 59] ++ ts).
      rewrite <- E, expect_app. reflexivity.
  Qed.

  Definition hash_words (dex : block_index) : list str := map (fun e => lit "0x" ++ fmt_08X (e_hash e)) dex.
  Definition offset_words (dex : block_index) : list str := map (fun e => fmt_d (e_offset e)) dex.
  Definition items_of (kb : ublock * block_index) : list (item * list str) :=
    let '(k, dex) := kb in
    [ (FnItem (find_ident k) (hash_ident k) (offset_ident k), []);
      (ConstItem (hash_ident k) (chars "u32") (N.of_nat (length dex)) (map e_hash dex), hash_words dex);
      (ConstItem (offset_ident k) (chars "usize") (N.of_nat (length dex)) (map e_offset dex), offset_words dex) ].

  Lemma items_literal kb : Forall (fun iw => Forall2 (fun w v => literal w = Some v) (snd iw) (item_values (fst iw))) (items_of kb).
  Proof.
    destruct kb as [k dex]. unfold items_of. repeat constructor; cbn [fst snd item_values]; unfold hash_words, offset_words.
    - induction dex as [|e dex IH]; constructor; [apply literal_08X|exact IH].
    - induction dex as [|e dex IH]; constructor; [apply literal_dec|exact IH].
  Qed.

  Lemma toks_block k dex s :
    is_word (find_ident k) = true -> is_word (hash_ident k) = true -> is_word (offset_ident k) = true -> dex <> [] ->
    toks Ground (block_text printable (k, dex) ++ s)
    = flat_map (fun iw => item_toks (fst iw) (snd iw)) (items_of (k, dex)) ++ toks Ground s.
  Proof.
    intros Hf Hh Ho Hd. unfold block_text. destruct dex as [|e dex]; [contradiction|].
    set (b := e :: dex). clearbody b. unfold items_of. cbn [flat_map fst snd item_toks].
    set (f := find_ident k) in *. set (h := hash_ident k) in *. set (o := offset_ident k) in *. clearbody f h o.
    rewrite <- !app_assoc.
    pc (lit "/// Use binary search on table of grapheme cluster hashes to find blit pattern for grapheme cluster." ++ nl
      ++ lit "/// Only attempt to match grapheme clusters of length limit codepoints." ++ nl
      ++ lit "fn ") (rust "fn"). rewrite <- ?app_assoc. f_equal.
    wd f. cbn [app]. f_equal.
    pc (lit "(cluster: &str, limit: u32) -> Option<(usize, usize)> {" ++ nl
      ++ lit "    let (key, bytes_hashed) = super::murmur3(cluster, M3_SEED, limit);" ++ nl
      ++ lit "    match ") (rust "(cluster: &str, limit: u32) -> Option<(usize, usize)> {
                               let (key, bytes_hashed) = super::murmur3(cluster, M3_SEED, limit);
                               match"). rewrite <- ?app_assoc. f_equal.
    wd h. cbn [app]. f_equal.
    pc (lit ".binary_search(&key) {" ++ nl
      ++ lit "        Ok(index) => return Some((") (rust ".binary_search(&key) { Ok(index) => return Some(("). rewrite <- ?app_assoc. f_equal.
    wd o. cbn [app]. f_equal.
    pcm (lit "[index], bytes_hashed))," ++ nl
      ++ lit "        _ => None," ++ nl
      ++ lit "    }" ++ nl
      ++ lit "}" ++ nl
      ++ nl
      ++ lit "/// Index of murmur3(grapheme cluster); sort matches ") (rust "[index], bytes_hashed)), _ => None, } }") Comment.
    rewrite <- ?app_assoc. f_equal.
    rewrite toks_comment by (apply is_word_one_line; exact Ho). rewrite toks_comment_end.
    pc (lit "const ") (rust "const"). rewrite <- ?app_assoc. f_equal.
    wd h. cbn [app]. f_equal.
    pc (lit ": [") (rust ": ["). rewrite <- ?app_assoc. f_equal.
    wd (lit "u32"); [|reflexivity]. cbn [app]. f_equal.
    pc (lit "; ") (rust ";"). rewrite <- ?app_assoc. f_equal.
    wd (fmt_d (N.of_nat (length b))); [|apply is_word_d]. cbn [app]. f_equal.
    pc (lit "] = [" ++ nl ++ lit "    ") (rust "] = ["). rewrite <- ?app_assoc. f_equal.
    rewrite toks_hashes. f_equal.
    pcm (lit "];" ++ nl ++ nl ++ lit "/// Lookup table of blit pattern offsets; sort matches ") (rust "];") Comment.
    rewrite <- ?app_assoc. f_equal.
    rewrite toks_comment by (apply is_word_one_line; exact Hh). rewrite toks_comment_end.
    pc (lit "const ") (rust "const"). rewrite <- ?app_assoc. f_equal.
    wd o. cbn [app]. f_equal.
    pc (lit ": [") (rust ": ["). rewrite <- ?app_assoc. f_equal.
    wd (lit "usize"); [|reflexivity]. cbn [app]. f_equal.
    pc (lit "; ") (rust ";"). rewrite <- ?app_assoc. f_equal.
    wd (fmt_d (N.of_nat (length b))); [|apply is_word_d]. cbn [app]. f_equal.
    pc (lit "] = [" ++ nl ++ lit "    ") (rust "] = ["). rewrite <- ?app_assoc. f_equal.
    rewrite toks_offsets. f_equal.
    pc (lit "];" ++ nl ++ nl) (rust "];"). reflexivity.
  Qed.
End Printable.
