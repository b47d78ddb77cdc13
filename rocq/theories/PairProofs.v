(** * Which multi-character prefixes the Latin and hanzi fonts match; ASCII text *)
From Coq Require Import ZArith.
From Verif Require Import FbFacts Str M3Hash FontDefs SpecPaint SpecText LookupProofs HashProofs SpecIndex IndexCheck.
From Verif Require Import Blit Fonts FontsOk IndexLatin IndexEmoji IndexHanzi IndexProofs FontSmall FontEmoji.

(** Pairs of characters that are not in the Latin index but have the hash of a
    cluster that is *)
Definition latin_collisions : list str :=
  [[0x30; 0x4E23F]; [0x48; 0xCDBB5]; [0x6B; 0x3E899]; [0x71; 0x6F0AC]].

Definition ascii_range (lo n : nat) : list N := map N.of_nat (seq lo n).
Lemma in_ascii_range lo n c : In c (ascii_range lo n) <-> N.of_nat lo <= c < N.of_nat (lo + n).
Proof.
  unfold ascii_range. rewrite in_map_iff. split.
  - intros (k & <- & H). apply in_seq in H. lia.
  - intros H. exists (N.to_nat c). split; [lia|]. apply in_seq. lia.
Qed.

Definition latin_pair (a c : N) : bool :=
  inb [a; c] (map snd latin_aliases) || inb [a; c] latin_collisions.

Lemma latin_pairs : pairs_only 0 small_hash_basic_latin (ascii_range 0 128) latin_pair = true.
Proof. vm_cast_no_check (eq_refl true). Qed.

(** The Latin alphabet, combining marks, and all of ASCII *)
Definition latin_chars : list N := flat_map (fun s => match s with [c] => [c] | _ => [] end) latin_index.
Definition marks : list N := flat_map (fun p => match snd p with [_; d] => [d] | _ => [] end) latin_aliases.
Definition others : list N := ascii_range 0 128 ++ filter (fun c => 128 <=? c) latin_chars ++ nodup N.eq_dec marks.

(** no emoji cluster starts with a letter of the Latin index followed by [others] *)
Definition emoji_block_free (b : block) : bool :=
  match filter (fun c => (b_low b <=? c) && (c <=? b_high b)) latin_chars with
  | [] => true
  | cs =>
      let lens := [1; 2; 3; 4] in
      let firsts fl := filter (fun c => len_utf8 c =? fl) cs in
      forallb (fun fl => match firsts fl with [] => true | fs => two_free 0 (b_hash b) fs others fl end) lens
      && if str_eqb (b_limits b) [2; 1] then 128 <=? b_low b
         else
           str_eqb (b_limits b) [3; 2]
           && (let hs := tset (b_hash b) in forallb (fun c => negb (tmem (hash_all [c] 0) hs)) cs)
           && forallb (fun fl => match firsts fl with [] => true | fs => three_free 0 (b_hash b) fs others fl end) lens
  end.

Lemma emoji_free : forallb emoji_block_free (f_blocks (blitstr_fonts Emoji)) = true.
Proof. vm_cast_no_check (eq_refl true). Qed.

Definition block_shape (gs : glyphset) (b : block) : Prop :=
  b_limits b = [1] \/
  (b_limits b = [2; 1] /\ b_low b = 0 /\ b_high b = 127 /\ b_hash b = small_hash_basic_latin /\
   gs <> Hanzi).

Lemma block_shapes gs : gs <> Emoji -> Forall (block_shape gs) (f_blocks (blitstr_fonts gs)).
Proof.
  intros H. destruct gs; [congruence| | | |];
    repeat (apply Forall_cons;
            [first [left; reflexivity
                   |right; split; [reflexivity|split; [reflexivity|split; [reflexivity|split;
                      [vm_cast_no_check (eq_refl small_hash_basic_latin)|discriminate]]]]]|]);
    apply Forall_nil.
Qed.

Lemma seeds gs : f_seed (blitstr_fonts gs) = 0.
Proof. destruct gs; reflexivity. Qed.

(** ** C31 *)
Lemma listed_pair gs a c : latin_pair a c = true -> gs <> Emoji -> gs <> Hanzi ->
  listed gs [a; c] \/ In [a; c] latin_collisions.
Proof.
  unfold latin_pair. intros H H1 H2. apply orb_prop in H as [H|H]; apply inb_in in H.
  - left; right. destruct gs; congruence || exact H.
  - right; exact H.
Qed.

Lemma glyph_for_consumes gs s off n :
  gs <> Emoji -> Forall scalar s -> glyph_for (blitstr_fonts gs) s = Some (off, n) ->
  listed gs (firstn n s) \/ gs <> Hanzi /\ In (firstn n s) latin_collisions.
Proof.
  intros Hgs Hs E.
  destruct (glyph_for_ok _ s off n (all_fonts_ok gs) E) as [_ Hn].
  unfold glyph_for in E. destruct s as [|ch t]; [discriminate|].
  destruct (find _ (f_blocks (blitstr_fonts gs))) as [b|] eqn:Eb; [|discriminate].
  apply find_some in Eb as [Hin Hr].
  apply match_limits_in in E as (l & k & Hl & El & Ek & _).
  apply index_of_some, nth_error_In in Ek. rewrite seeds in Ek.
  assert (Hch : scalar ch) by (inversion Hs; assumption).
  assert (One : n = 1%nat -> listed gs (firstn n (ch :: t))).
  { intros ->. change (firstn 1 (ch :: t)) with [ch] in *. apply singles_listed.
    apply (singles_only_hash (blitstr_fonts gs) (singles gs) b ch).
    - apply singles_ok.
    - unfold scalar in Hch; lia.
    - exact Hin.
    - lia.
    - rewrite seeds. exact Ek. }
  pose proof (block_shapes gs Hgs) as HB. rewrite Forall_forall in HB.
  destruct (HB b Hin) as [HL|(HL & Hlo & Hhi & Hh & Hnh)]; rewrite HL in Hl.
  - left; apply One. destruct Hl as [<-|[]]. simpl length in El. lia.
  - destruct Hl as [<-|[<-|[]]]; [|left; apply One; simpl length in El; lia].
    destruct t as [|d t]; [left; apply One; simpl length in El; lia|].
    assert (n = 2%nat) as -> by (simpl length in El; lia).
    change (firstn 2 (ch :: d :: t)) with [ch; d] in *. rewrite Hh in Ek.
    assert (Hd : scalar d) by (inversion Hs as [|? ? _ Hs']; inversion Hs'; assumption).
    rewrite Hlo, Hhi in Hr. unfold scalar in Hd.
    assert (P : latin_pair ch d = true).
    { apply (pairs_only_ok 0 small_hash_basic_latin (ascii_range 0 128)).
      - reflexivity.
      - exact latin_pairs.
      - apply in_ascii_range. lia.
      - lia.
      - lia.
      - exact Ek. }
    destruct (listed_pair gs ch d P Hgs Hnh); [left; assumption|right; split; assumption].
Qed.

Lemma lookup_consumes gs s off n :
  gs <> Emoji -> Forall scalar s -> get_blit_pattern_offset (blitstr_fonts gs) s = Ret (Some (off, n)) ->
  exists a t, s = a ++ t /\ str_len a = n /\ (listed gs a \/ gs <> Hanzi /\ In a latin_collisions).
Proof.
  intros Hgs Hs E. rewrite lookup_spec in E by apply all_fonts_ok.
  destruct (glyph_for (blitstr_fonts gs) s) as [[o k]|] eqn:Eg; [|discriminate].
  cbn [lookup_result] in E. injection E as <- <-.
  exists (firstn k s), (skipn k s). split; [symmetry; apply firstn_skipn|]. split; [reflexivity|].
  apply (glyph_for_consumes gs s o k); assumption.
Qed.

(** ** Latin text *)
Lemma latin_chars_in c : In c latin_chars <-> In [c] latin_index.
Proof.
  unfold latin_chars. rewrite in_flat_map. split.
  - intros (s & H1 & H2). destruct s as [|d [|]]; simpl in H2; try contradiction.
    destruct H2 as [->|[]]. exact H1.
  - intros H. exists [c]. split; [exact H|left; reflexivity].
Qed.

Lemma latin_chars_lt c : In c latin_chars -> c < 0xD800 \/ c = 0xFFFD.
Proof.
  intros H. assert (A : forallb (fun c => (c <? 0xD800) || (c =? 0xFFFD)) latin_chars = true)
    by (vm_compute; reflexivity).
  rewrite forallb_forall in A. specialize (A c H). lia.
Qed.

Lemma others_chars c : In c latin_chars -> In c others.
Proof.
  intros H. unfold others. apply in_or_app. destruct (N.lt_ge_cases c 128).
  - left. apply in_ascii_range. lia.
  - right. apply in_or_app. left. apply filter_In. split; [exact H|]. apply N.leb_le. assumption.
Qed.
Lemma others_ascii c : c < 128 -> In c others.
Proof. intros H. apply in_or_app. left. apply in_ascii_range. lia. Qed.
Lemma others_marks c : In c marks -> In c others.
Proof. intros H. apply in_or_app. right. apply in_or_app. right. apply nodup_In. exact H. Qed.

Lemma others_facts c : In c others -> c < 0x110000 /\ forallb (fun s => match s with [_; d] => negb (d =? c) | _ => true end) latin_collisions = true.
Proof.
  intros H.
  assert (A : forallb (fun c => (c <? 0x110000) && forallb (fun s => match s with [_; d] => negb (d =? c) | _ => true end) latin_collisions) others = true)
    by (vm_compute; reflexivity).
  rewrite forallb_forall in A. specialize (A c H). apply andb_prop in A as [A1 A2]. split; [lia|exact A2].
Qed.

(** *** The emoji font leaves Latin text alone *)
Lemma emoji_latin c t : In c latin_chars -> Forall (fun d => In d others) t ->
  glyph_for (blitstr_fonts Emoji) (c :: t) = glyph_for (blitstr_fonts Emoji) [c] /\
  (forall off n, glyph_for (blitstr_fonts Emoji) [c] = Some (off, n) -> n = 1%nat) /\
  (c < 128 -> glyph_for (blitstr_fonts Emoji) [c] = None).
Proof.
  intros Hc Ht. unfold glyph_for.
  destruct (find _ (f_blocks (blitstr_fonts Emoji))) as [b|] eqn:Eb; [|repeat split; congruence].
  pose proof Eb as Eb0.
  apply find_some in Eb as [Hin Hr].
  pose proof emoji_free as F. rewrite forallb_forall in F. specialize (F b Hin).
  unfold emoji_block_free in F. cbv zeta in F.
  set (cs := filter (fun c => (b_low b <=? c) && (c <=? b_high b)) latin_chars) in *.
  assert (Ics : In c cs) by (apply filter_In; split; assumption).
  destruct cs as [|c0 cs0] eqn:Ecs; [destruct Ics|]. rewrite <- Ecs in *. clear c0 cs0 Ecs.
  apply andb_prop in F as [F2 F3].
  assert (Ifs : In c (filter (fun d => len_utf8 d =? len_utf8 c) cs))
    by (apply filter_In; split; [exact Ics|apply N.eqb_refl]).
  assert (Two : forall d, In d others -> index_of (hash_all [c; d] (f_seed (blitstr_fonts Emoji))) (b_hash b) = None).
  { intros d Hd. rewrite seeds. apply index_of_none.
    rewrite forallb_forall in F2. specialize (F2 _ (len_utf8_cases c)). cbv beta in F2.
    destruct (filter (fun c0 => len_utf8 c0 =? len_utf8 c) cs) as [|x xs] eqn:Ef; [destruct Ifs|].
    apply (two_free_ok 0 (b_hash b) (x :: xs) others (len_utf8 c)); try assumption; reflexivity. }
  assert (O1 : firstn (N.to_nat 1) (c :: t) = [c]) by reflexivity.
  destruct (str_eqb (b_limits b) [2; 1]) eqn:E21.
  - (* limits 2, 1 *)
    apply str_eqb_eq in E21. rewrite E21.
    assert (A : match_limits (blitstr_fonts Emoji) b (c :: t) [2; 1] = match_limits (blitstr_fonts Emoji) b [c] [1]).
    { cbn [match_limits]. rewrite !grapheme_cluster_spec. cbn [fst]. rewrite O1.
      change (firstn (N.to_nat 1) [c]) with [c].
      destruct t as [|d t].
      - change (firstn (N.to_nat 2) [c]) with [c].
        destruct (index_of _ _); reflexivity.
      - change (firstn (N.to_nat 2) (c :: d :: t)) with [c; d].
        rewrite Two by (inversion Ht; assumption).
        destruct (index_of _ _); reflexivity. }
    assert (B : match_limits (blitstr_fonts Emoji) b [c] [2; 1] = match_limits (blitstr_fonts Emoji) b [c] [1]).
    { cbn [match_limits]. rewrite !grapheme_cluster_spec. cbn [fst].
      change (firstn (N.to_nat 1) [c]) with [c]. change (firstn (N.to_nat 2) [c]) with [c].
      destruct (index_of _ _); reflexivity. }
    rewrite A, B. split; [reflexivity|]. split; [|intros; exfalso; lia].
    intros off n E. cbn [match_limits] in E. destruct (index_of _ _); [|discriminate].
    injection E as _ <-. reflexivity.
  - (* limits 3, 2 *)
    apply andb_prop in F3 as [F3 F4]. apply andb_prop in F3 as [E32 F1].
    apply str_eqb_eq in E32. rewrite E32.
    assert (One : index_of (hash_all [c] (f_seed (blitstr_fonts Emoji))) (b_hash b) = None).
    { rewrite seeds. apply index_of_none. rewrite forallb_forall in F1. specialize (F1 c Ics).
      apply negb_true_iff, tmem_notin in F1. exact F1. }
    assert (Three : forall d e, In d others -> In e others ->
              index_of (hash_all [c; d; e] (f_seed (blitstr_fonts Emoji))) (b_hash b) = None).
    { intros d e Hd He. rewrite seeds. apply index_of_none.
      rewrite forallb_forall in F4. specialize (F4 _ (len_utf8_cases c)). cbv beta in F4.
      destruct (filter (fun c0 => len_utf8 c0 =? len_utf8 c) cs) as [|x xs] eqn:Ef; [destruct Ifs|].
      apply (three_free_ok 0 (b_hash b) (x :: xs) others (len_utf8 c)); try assumption; reflexivity. }
    assert (A : match_limits (blitstr_fonts Emoji) b (c :: t) [3; 2] = None).
    { cbn [match_limits]. rewrite !grapheme_cluster_spec. cbn [fst].
      destruct t as [|d [|e t]].
      - change (firstn (N.to_nat 3) [c]) with [c]. change (firstn (N.to_nat 2) [c]) with [c].
        rewrite One. reflexivity.
      - change (firstn (N.to_nat 3) [c; d]) with [c; d]. change (firstn (N.to_nat 2) [c; d]) with [c; d].
        rewrite Two by (inversion Ht; assumption). reflexivity.
      - change (firstn (N.to_nat 3) (c :: d :: e :: t)) with [c; d; e].
        change (firstn (N.to_nat 2) (c :: d :: e :: t)) with [c; d].
        assert (Hd : In d others) by (inversion Ht; assumption).
        assert (He : In e others) by (inversion Ht as [|? ? _ Ht']; inversion Ht'; assumption).
        rewrite Three, Two by assumption. reflexivity. }
    assert (B : match_limits (blitstr_fonts Emoji) b [c] [3; 2] = None).
    { cbn [match_limits]. rewrite !grapheme_cluster_spec. cbn [fst].
      change (firstn (N.to_nat 3) [c]) with [c]. change (firstn (N.to_nat 2) [c]) with [c].
      rewrite One. reflexivity. }
    rewrite A, B. split; [reflexivity|]. split; [discriminate|reflexivity].
Qed.

(** *** The Latin fonts *)
Definition latin_glyph (st : glyphstyle) (c : N) : N :=
  match glyph_for (blitstr_fonts (latin_set st)) [c] with Some (off, _) => off | None => 0 end.

Lemma latin_not_emoji st : latin_set st <> Emoji /\ latin_set st <> Hanzi.
Proof. destruct st; split; discriminate. Qed.

Lemma latin_index_st st : font_index (latin_set st) = latin_index.
Proof. destruct st; reflexivity. Qed.
Lemma latin_aliases_st st : font_aliases (latin_set st) = latin_aliases.
Proof. destruct st; reflexivity. Qed.

(** Latin text that does not start with a combining mark *)
Definition good (t : str) : Prop :=
  Forall (fun d => In d others) t /\ match t with d :: _ => ~ In d marks | [] => True end.

Lemma latin_block_for st c b :
  find (fun b => (b_low b <=? c) && (c <=? b_high b)) (f_blocks (blitstr_fonts (latin_set st))) = Some b ->
  b_limits b = [1] \/ c < 128 /\ b_limits b = [2; 1] /\ b_hash b = small_hash_basic_latin.
Proof.
  intros Eb. apply find_some in Eb as [Hin Hr]. destruct (latin_not_emoji st) as [Ne Nh].
  pose proof (block_shapes _ Ne) as HB. rewrite Forall_forall in HB.
  destruct (HB b Hin) as [HL|(HL & Hlo & Hhi & Hh & _)]; [left; exact HL|right].
  split; [lia|]. auto.
Qed.

(** All that matters of the text behind a character is that its first character is not
    a combining mark, nor the second of a colliding pair *)
Definition good_next (t : str) : Prop :=
  match t with
  | [] => True
  | d :: _ => d < 0x110000 /\ ~ In d marks /\
      forallb (fun s => match s with [_; x] => negb (x =? d) | _ => true end) latin_collisions = true
  end.
Lemma good_good_next t : good t -> good_next t.
Proof.
  intros [Ht Hm]. destruct t as [|d t]; [exact I|]. inversion Ht as [|? ? Hd _]; subst.
  destruct (others_facts d Hd). split; [assumption|]. split; assumption.
Qed.

Lemma latin_read_next st c t : In c latin_chars -> good_next t ->
  glyph_for (blitstr_fonts (latin_set st)) (c :: t) = Some (latin_glyph st c, 1%nat).
Proof.
  intros Hc Ht.
  assert (L : listed (latin_set st) [c]).
  { left. rewrite latin_index_st. apply latin_chars_in. exact Hc. }
  destruct (listed_found _ _ L) as (off & E).
  assert (G : latin_glyph st c = off) by (unfold latin_glyph; rewrite E; reflexivity).
  rewrite G. clear G L. unfold glyph_for in *.
  destruct (find _ (f_blocks (blitstr_fonts (latin_set st)))) as [b|] eqn:Eb; [|discriminate].
  destruct (latin_block_for st c b Eb) as [HL|(Hc128 & HL & Hh)]; rewrite HL in *.
  - cbn [match_limits] in *. rewrite !grapheme_cluster_spec in *. cbn [fst] in *.
    change (firstn (N.to_nat 1) (c :: t)) with [c]. change (firstn (N.to_nat 1) [c]) with [c] in E.
    destruct (index_of _ _) as [k|]; [|discriminate]. injection E as <-. f_equal.
  - cbn [match_limits] in *. rewrite !grapheme_cluster_spec in *. cbn [fst] in *.
    change (firstn (N.to_nat 1) (c :: t)) with [c].
    change (firstn (N.to_nat 2) [c]) with [c] in E. change (firstn (N.to_nat 1) [c]) with [c] in E.
    destruct t as [|d t].
    + change (firstn (N.to_nat 2) [c]) with [c].
      destruct (index_of _ _) as [k|]; [|discriminate]. injection E as <-. reflexivity.
    + change (firstn (N.to_nat 2) (c :: d :: t)) with [c; d].
      destruct (index_of (hash_all [c; d] _) _) as [k|] eqn:Ek.
      * exfalso. apply index_of_some, nth_error_In in Ek. rewrite seeds, Hh in Ek.
        destruct Ht as (Hd1 & Hm & Hd2).
        assert (P : latin_pair c d = true).
        { apply (pairs_only_ok 0 small_hash_basic_latin (ascii_range 0 128)).
          - reflexivity.
          - exact latin_pairs.
          - apply in_ascii_range. lia.
          - lia.
          - exact Hd1.
          - exact Ek. }
        unfold latin_pair in P. apply orb_prop in P. rewrite !inb_in in P. destruct P as [P|P].
        -- apply Hm. apply in_map_iff in P as (p & E1 & E2).
           apply in_flat_map. exists p. split; [exact E2|]. destruct p as [pc pa]; cbn [snd] in *; subst pa; left; reflexivity.
        -- rewrite forallb_forall in Hd2. specialize (Hd2 _ P). cbn in Hd2. rewrite N.eqb_refl in Hd2. discriminate.
      * destruct (index_of (hash_all [c] _) _) as [k|]; [|discriminate].
        injection E as <-. f_equal.
Qed.

Lemma latin_read st c t : In c latin_chars -> good t ->
  glyph_for (blitstr_fonts (latin_set st)) (c :: t) = Some (latin_glyph st c, 1%nat).
Proof. intros Hc Ht. apply latin_read_next; [exact Hc|apply good_good_next; exact Ht]. Qed.

(** What a character of the Latin index is painted as, whatever Latin text follows *)
Definition char_glyph (st : glyphstyle) (c : N) : glyphset * N :=
  match glyph_for (blitstr_fonts Emoji) [c] with
  | Some (off, _) => (Emoji, off)
  | None => (latin_set st, latin_glyph st c)
  end.

Lemma choose_latin st c t : In c latin_chars -> good t ->
  choose blitstr_fonts st (c :: t) = (fst (char_glyph st c), snd (char_glyph st c), t, true).
Proof.
  intros Hc Ht. unfold choose, char_glyph.
  destruct (emoji_latin c t Hc (proj1 Ht)) as (E1 & E2 & _). rewrite E1.
  destruct (glyph_for (blitstr_fonts Emoji) [c]) as [[off n]|].
  - rewrite (E2 off n eq_refl). reflexivity.
  - rewrite latin_read by assumption. reflexivity.
Qed.

(** the shape of the alias list *)
Definition alias_shape (p : str * str) : bool :=
  match p with
  | ([x], [a; d]) =>
      inb [x] latin_index && inb [a] latin_index && (a <? 128) && existsb (N.eqb d) marks
      && match glyph_for (blitstr_fonts Emoji) [x] with None => true | Some _ => false end
  | _ => false
  end.
Lemma alias_shapes : forallb alias_shape latin_aliases = true.
Proof. vm_cast_no_check (eq_refl true). Qed.

Lemma alias_cases canon alias : In (canon, alias) latin_aliases ->
  exists x a d, canon = [x] /\ alias = [a; d] /\ In x latin_chars /\ In a latin_chars /\ a < 128 /\
    In d marks /\ glyph_for (blitstr_fonts Emoji) [x] = None.
Proof.
  intros H. pose proof alias_shapes as A. rewrite forallb_forall in A. specialize (A _ H).
  unfold alias_shape in A.
  destruct canon as [|x [|]]; try discriminate. destruct alias as [|a [|d [|]]]; try discriminate.
  apply andb_prop in A as [A A5]. apply andb_prop in A as [A A4]. apply andb_prop in A as [A A3].
  apply andb_prop in A as [A1 A2]. apply inb_in in A1, A2.
  exists x, a, d. repeat split; try (apply latin_chars_in; assumption).
  - apply N.ltb_lt; assumption.
  - apply existsb_exists in A4 as (m & Hm & E). apply N.eqb_eq in E. subst; assumption.
  - destruct (glyph_for _ _); [discriminate|reflexivity].
Qed.

Lemma alias_read st x a d t : In ([x], [a; d]) latin_aliases ->
  glyph_for (blitstr_fonts (latin_set st)) (a :: d :: t) = Some (latin_glyph st x, 2%nat).
Proof.
  intros Hin. rewrite <- (latin_aliases_st st) in Hin.
  destruct (alias_found (latin_set st) [x] [a; d] Hin) as (off & F1 & F2).
  assert (G : latin_glyph st x = off) by (unfold latin_glyph; rewrite F1; reflexivity).
  rewrite G. clear G F1. unfold glyph_for in *.
  destruct (find _ (f_blocks (blitstr_fonts (latin_set st)))) as [b|] eqn:Eb; [|discriminate].
  destruct (latin_block_for st a b Eb) as [HL|(_ & HL & Hh)]; rewrite HL in *.
  - cbn [match_limits] in F2. destruct (index_of _ _); [|discriminate]. injection F2 as _ F2. discriminate.
  - cbn [match_limits] in *. rewrite !grapheme_cluster_spec in *. cbn [fst] in *.
    change (firstn (N.to_nat 2) (a :: d :: t)) with [a; d].
    change (firstn (N.to_nat 2) [a; d]) with [a; d] in F2.
    change (firstn (N.to_nat 1) [a; d]) with [a] in F2. change (firstn (N.to_nat 1) (a :: d :: t)) with [a].
    destruct (index_of (hash_all [a; d] _) _) as [k|].
    + injection F2 as <-. reflexivity.
    + destruct (index_of _ _); [|discriminate]. injection F2 as _ F2. discriminate.
Qed.

Lemma choose_forms st canon alias t : In (canon, alias) latin_aliases -> good t ->
  exists off, choose blitstr_fonts st (canon ++ t) = (latin_set st, off, t, true) /\
              choose blitstr_fonts st (alias ++ t) = (latin_set st, off, t, true).
Proof.
  intros Hin Ht. destruct (alias_cases canon alias Hin) as (x & a & d & -> & -> & Hx & Ha & Ha' & Hd & Ex).
  exists (latin_glyph st x). split.
  - cbn [app]. rewrite choose_latin by assumption. unfold char_glyph. rewrite Ex. reflexivity.
  - cbn [app]. unfold choose.
    assert (Ht' : Forall (fun d => In d others) (d :: t))
      by (constructor; [apply others_marks; exact Hd|apply Ht]).
    destruct (emoji_latin a (d :: t) Ha Ht') as (E1 & _ & E3). rewrite E1, E3 by exact Ha'.
    rewrite (alias_read st x a d t Hin). reflexivity.
Qed.

(** *** Printable ASCII *)
Lemma printable_chars c : printable c -> In c latin_chars.
Proof.
  intros H. assert (A : forallb (fun c => existsb (N.eqb c) latin_chars) (ascii_range 32 95) = true)
    by (vm_compute; reflexivity).
  rewrite forallb_forall in A. unfold printable in H.
  specialize (A c). destruct (existsb (N.eqb c) latin_chars) eqn:E.
  - apply existsb_exists in E as (d & Hd & E). apply N.eqb_eq in E. subst; exact Hd.
  - assert (In c (ascii_range 32 95)) by (apply in_ascii_range; lia). specialize (A H0). discriminate.
Qed.
Lemma marks_high d : In d marks -> 0x300 <= d /\ ~ In d latin_chars.
Proof.
  intros H. assert (A : forallb (fun d => (0x300 <=? d) && negb (existsb (N.eqb d) latin_chars)) marks = true)
    by (vm_compute; reflexivity).
  rewrite forallb_forall in A. specialize (A d H). apply andb_prop in A as [A1 A2]. split; [lia|].
  intros Hd. apply negb_true_iff in A2.
  assert (existsb (N.eqb d) latin_chars = true) by (apply existsb_exists; exists d; split; [exact Hd|apply N.eqb_refl]).
  congruence.
Qed.

Lemma good_ascii t : Forall (fun d => d < 128) t -> good t.
Proof.
  intros H. split.
  - eapply Forall_impl; [|exact H]. intros; apply others_ascii; assumption.
  - destruct t as [|d t]; [exact I|]. inversion H; subst. intros Hm. apply marks_high in Hm. lia.
Qed.

Lemma choose_ascii st c t : printable c -> Forall (fun d => d < 128) t ->
  choose blitstr_fonts st (c :: t) = (latin_set st, latin_glyph st c, t, true).
Proof.
  intros Hc Ht. rewrite choose_latin by (try apply printable_chars; try apply good_ascii; assumption).
  unfold char_glyph.
  destruct (emoji_latin c [] (printable_chars c Hc) ltac:(constructor)) as (_ & _ & E).
  rewrite E by (unfold printable in Hc; lia). reflexivity.
Qed.

Lemma ascii_text_lt s : ascii_text s -> Forall (fun d => d < 128) s.
Proof. intros H. eapply Forall_impl; [|exact H]. unfold printable. simpl; intros; lia. Qed.

Lemma ascii_segmented st s : ascii_text s -> segmented blitstr_fonts st s.
Proof.
  induction 1 as [|c s Hc Hs IH]; [constructor|].
  destruct Hc as [->|Hc]; [constructor; exact IH|].
  eapply seg_known; [unfold printable in Hc; lia| |exact IH].
  apply choose_ascii; [exact Hc|apply ascii_text_lt; exact Hs].
Qed.

Lemma ascii_splits st s1 s2 : ascii_text s1 -> Forall (fun d => d < 128) s2 ->
  splits blitstr_fonts st s1 s2.
Proof.
  intros H1 H2. induction H1 as [|c s Hc Hs IH]; [constructor|].
  destruct Hc as [->|Hc]; [constructor; exact IH|].
  eapply sp_glyph; [unfold printable in Hc; lia| | |left; reflexivity|exact IH].
  - apply choose_ascii; [exact Hc|apply ascii_text_lt; exact Hs].
  - apply choose_ascii; [exact Hc|]. apply Forall_app; split; [apply ascii_text_lt; exact Hs|exact H2].
Qed.

(** *** Composed and decomposed letters *)
Lemma same_letters_good s s' : same_letters s s' -> good s /\ good s'.
Proof.
  assert (G10 : forall t, good t -> good (10 :: t)).
  { intros t [H _]. split; [constructor; [apply others_ascii; lia|exact H]|].
    intros Hm. apply marks_high in Hm. lia. }
  assert (Gc : forall c t, In c latin_chars -> good t -> good (c :: t)).
  { intros c t Hc [H _]. split; [constructor; [apply others_chars; exact Hc|exact H]|].
    intros Hm. apply marks_high in Hm. tauto. }
  induction 1 as [|t t' H [IH1 IH2]|c t t' Hc H [IH1 IH2]|canon alias u v t t' Hin Hu Hv H [IH1 IH2]].
  - split; (split; [constructor|exact I]).
  - split; apply G10; assumption.
  - apply latin_chars_in in Hc. split; apply Gc; assumption.
  - destruct (alias_cases canon alias Hin) as (x & a & d & -> & -> & Hx & Ha & _ & Hd & _).
    assert (Gf : forall u t, u = [x] \/ u = [a; d] -> good t -> good (u ++ t)).
    { intros w r [-> | ->] Hr; cbn [app]; [apply Gc; assumption|].
      split; [|intros Hm; apply marks_high in Hm; tauto].
      constructor; [apply others_chars; exact Ha|]. constructor; [apply others_marks; exact Hd|apply Hr]. }
    split; apply Gf; assumption.
Qed.

Lemma latin_not_newline c : In c latin_chars -> c <> 10.
Proof.
  intros H ->. assert (A : existsb (N.eqb 10) latin_chars = false) by (vm_compute; reflexivity).
  assert (existsb (N.eqb 10) latin_chars = true) by (apply existsb_exists; exists 10; split; [exact H|reflexivity]).
  congruence.
Qed.
