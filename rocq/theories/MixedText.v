(** * How texts of Latin letters and hanzi are read *)
From Coq Require Import ZArith.
From Verif Require Import FbFacts Str M3Hash FontDefs SpecPaint SpecText LookupProofs HashProofs SpecIndex IndexCheck HashBits.
From Verif Require Import Blit Fonts FontsOk IndexLatin IndexEmoji IndexHanzi IndexProofs FontEmoji PairProofs.
From Verif Require Import SpecPictures PictureProofs SpecSetting.

(** ** The characters *)
Definition glyph_chars : list N := latin_chars ++ hanzi_chars.
Definition alphabet : list N := 10 :: latin_chars ++ nodup N.eq_dec marks ++ hanzi_chars.
Definition char_in (c : N) (l : list N) : bool := existsb (N.eqb c) l.
Lemma char_in_ok c l : char_in c l = true <-> In c l.
Proof.
  unfold char_in. rewrite existsb_exists. split.
  - intros (d & I & E). apply N.eqb_eq in E. subst. exact I.
  - intros I. exists c. split; [exact I|apply N.eqb_refl].
Qed.

Lemma in_alphabet c : In c alphabet <-> c = 10 \/ In c latin_chars \/ In c marks \/ In c hanzi_chars.
Proof.
  unfold alphabet. cbn [In]. rewrite !in_app_iff, nodup_In. intuition.
Qed.
Lemma glyph_char_in c : In c glyph_chars -> In c alphabet.
Proof. unfold glyph_chars. rewrite in_alphabet, in_app_iff. intuition. Qed.

(** ** The last character of a prefix with a hash in a table *)
Definition last_only (hs : list N) (prefix : str) (ok : N -> bool) : bool :=
  let st := fold_left mix prefix 0 in
  let n := str_len prefix in
  forallb (fun h =>
    let u := unavalanche h in
    forallb (fun len =>
      let c := unscramble (N.lxor st (unmix (N.lxor u (n + len)))) in
      if (c <? 0x110000) && (len_utf8 c =? len) then ok c else true) [1; 2; 3; 4]) hs.

Lemma last_only_ok hs prefix ok c : last_only hs prefix ok = true -> str_len prefix < 2 ^ 31 ->
  c < 0x110000 -> In (hash_all (prefix ++ [c]) 0) hs -> ok c = true.
Proof.
  intros H Hp Hc Hh. unfold last_only in H. cbv zeta in H. rewrite forallb_forall in H.
  specialize (H _ Hh). cbv beta in H. rewrite forallb_forall in H. specialize (H _ (len_utf8_cases c)). cbv beta in H.
  pose proof (before_last_ok prefix c 0 ltac:(reflexivity)) as B. rewrite before_last_eq in B.
  pose proof (len_utf8_pos c) as Hl.
  assert (L : w32 (str_len (prefix ++ [c])) = str_len prefix + len_utf8 c).
  { rewrite str_len_app. cbn [str_len]. rewrite N.add_0_r. apply w32_small.
    change (2 ^ 31) with 2147483648 in Hp. change (2 ^ 32) with 4294967296. lia. }
  rewrite L in B. rewrite B in H.
  rewrite <- N.lxor_assoc, N.lxor_nilpotent, N.lxor_0_l in H.
  rewrite unscramble_ok in H by lia.
  rewrite N.eqb_refl, andb_true_r in H. destruct (N.ltb_spec c 0x110000); [exact H|lia].
Qed.

(** ** The emoji font leaves the letters and hanzi alone *)
Definition block_chars (b : block) : list N := filter (fun c => (b_low b <=? c) && (c <=? b_high b)) glyph_chars.

Definition block_free (b : block) : bool :=
  match block_chars b with
  | [] => true
  | cs =>
      forallb (fun a => last_only (b_hash b) [a] (fun c => negb (char_in c alphabet))) cs
      && if str_eqb (b_limits b) [2; 1] then true
         else str_eqb (b_limits b) [3; 2] && forallb (fun c => c <? 128) cs
              && forallb (fun c => negb (existsb (N.eqb (hash_all [c] 0)) (b_hash b))) cs
              && str_eqb (b_hash b) emoji_hash_basic_latin
  end.
Lemma blocks_free : forallb block_free (f_blocks (blitstr_fonts Emoji)) = true.
Proof. vm_cast_no_check (eq_refl true). Qed.

Definition ascii_chars : list N := filter (fun c => c <? 128) latin_chars.

(** The first two characters of the lookalikes *)
Definition starts_lookalike (a d : N) : bool :=
  existsb (fun p => match fst p with x :: y :: _ => (x =? a) && (y =? d) | _ => false end) lookalikes.

Lemma three_backward : backward 0 emoji_hash_basic_latin ascii_chars alphabet 1 starts_lookalike 3 = true.
Proof. vm_cast_no_check (eq_refl true). Qed.
Lemma three_forward :
  forallb (forward 0 emoji_hash_basic_latin ascii_chars alphabet 1 starts_lookalike) [1; 2; 4] = true.
Proof. vm_cast_no_check (eq_refl true). Qed.
Lemma three_last : forallb (fun p => match fst p with
    | a :: d :: _ => last_only emoji_hash_basic_latin [a; d] (fun e =>
        negb (char_in e alphabet) || inb [a; d; e] (map fst lookalikes))
    | _ => false end) lookalikes = true.
Proof. vm_cast_no_check (eq_refl true). Qed.

Lemma alphabet_lt c : In c alphabet -> c < 0x110000.
Proof.
  intros H. assert (A : forallb (fun c => c <? 0x110000) alphabet = true) by (vm_cast_no_check (eq_refl true)).
  rewrite forallb_forall in A. apply N.ltb_lt. exact (A c H).
Qed.

Lemma three_only a d e : In a latin_chars -> a < 128 -> In d alphabet -> In e alphabet ->
  In (hash_all [a; d; e] 0) emoji_hash_basic_latin -> exists k, In ([a; d; e], k) lookalikes.
Proof.
  intros Ha La Hd He Hh.
  assert (Ia : In a ascii_chars) by (apply filter_In; split; [exact Ha|apply N.ltb_lt; exact La]).
  assert (L1 : len_utf8 a = 1) by (unfold len_utf8; destruct (N.ltb_spec a 128); [reflexivity|lia]).
  assert (S : starts_lookalike a d = true).
  { destruct (N.eq_dec (len_utf8 d) 3) as [E|E].
    - apply (backward_ok 0 emoji_hash_basic_latin ascii_chars alphabet 1 starts_lookalike a d e);
        try assumption; try reflexivity. rewrite E. exact three_backward.
    - apply (forward_ok 0 emoji_hash_basic_latin ascii_chars alphabet 1 starts_lookalike a d e);
        try assumption; try reflexivity.
      pose proof three_forward as F. rewrite forallb_forall in F. apply F.
      pose proof (len_utf8_cases d) as C. cbn [In] in *. intuition. }
  unfold starts_lookalike in S. apply existsb_exists in S. destruct S as ([three k] & I & S). cbn [fst] in S.
  pose proof three_last as T. rewrite forallb_forall in T. specialize (T _ I). cbn [fst] in T.
  destruct three as [|x [|y r]]; try discriminate. apply andb_prop in S. destruct S as [S1 S2].
  apply N.eqb_eq in S1, S2. subst x y.
  assert (K : negb (char_in e alphabet) || inb [a; d; e] (map fst lookalikes) = true).
  { apply (last_only_ok emoji_hash_basic_latin [a; d] (fun e => negb (char_in e alphabet) || inb [a; d; e] (map fst lookalikes)) e).
    - exact T.
    - cbn [str_len]. pose proof (len_utf8_pos a). pose proof (len_utf8_pos d). change (2 ^ 31) with 2147483648. lia.
    - apply alphabet_lt. exact He.
    - exact Hh. }
  apply (proj2 (char_in_ok _ _)) in He. rewrite He in K. cbn [negb orb] in K.
  apply inb_in, in_map_iff in K. destruct K as ([t k'] & E & J). cbn [fst] in E. subst t.
  exists k'. exact J.
Qed.

Definition starts_none (s : str) : Prop := forall three k after, In (three, k) lookalikes -> s <> three ++ after.

Lemma emoji_mixed c t : In c glyph_chars -> Forall (fun d => In d alphabet) t -> starts_none (c :: t) ->
  glyph_for (blitstr_fonts Emoji) (c :: t) = glyph_for (blitstr_fonts Emoji) [c] /\
  (forall off n, glyph_for (blitstr_fonts Emoji) [c] = Some (off, n) -> n = 1%nat).
Proof.
  intros Hc Ht Hn. unfold glyph_for.
  destruct (find _ (f_blocks (blitstr_fonts Emoji))) as [b|] eqn:Eb; [|split; congruence].
  apply find_some in Eb. destruct Eb as [Hin Hr].
  pose proof blocks_free as F. rewrite forallb_forall in F. specialize (F b Hin). unfold block_free in F.
  assert (Ics : In c (block_chars b)) by (apply filter_In; split; assumption).
  destruct (block_chars b) as [|c0 cs0] eqn:Ecs; [destruct Ics|]. rewrite <- Ecs in *. clear c0 cs0 Ecs.
  apply andb_prop in F. destruct F as [F2 F3].
  assert (Two : forall d, In d alphabet -> index_of (hash_all [c; d] (f_seed (blitstr_fonts Emoji))) (b_hash b) = None).
  { intros d Hd. rewrite seeds. apply index_of_none. intros Hh.
    rewrite forallb_forall in F2. specialize (F2 c Ics).
    assert (K : negb (char_in d alphabet) = true).
    { apply (last_only_ok (b_hash b) [c] (fun e => negb (char_in e alphabet)) d).
      - exact F2.
      - cbn [str_len]. pose proof (len_utf8_pos c). change (2 ^ 31) with 2147483648. lia.
      - apply alphabet_lt. exact Hd.
      - exact Hh. }
    apply (proj2 (char_in_ok _ _)) in Hd. rewrite Hd in K. discriminate. }
  assert (O1 : firstn (N.to_nat 1) (c :: t) = [c]) by reflexivity.
  destruct (str_eqb (b_limits b) [2; 1]) eqn:E21.
  - apply str_eqb_eq in E21. rewrite E21.
    assert (A : match_limits (blitstr_fonts Emoji) b (c :: t) [2; 1] = match_limits (blitstr_fonts Emoji) b [c] [1]).
    { cbn [match_limits]. rewrite !grapheme_cluster_spec. cbn [fst]. rewrite O1.
      change (firstn (N.to_nat 1) [c]) with [c].
      destruct t as [|d t].
      - change (firstn (N.to_nat 2) [c]) with [c]. destruct (index_of _ _); reflexivity.
      - change (firstn (N.to_nat 2) (c :: d :: t)) with [c; d].
        rewrite Two by (inversion Ht; assumption). destruct (index_of _ _); reflexivity. }
    assert (B : match_limits (blitstr_fonts Emoji) b [c] [2; 1] = match_limits (blitstr_fonts Emoji) b [c] [1]).
    { cbn [match_limits]. rewrite !grapheme_cluster_spec. cbn [fst].
      change (firstn (N.to_nat 1) [c]) with [c]. change (firstn (N.to_nat 2) [c]) with [c].
      destruct (index_of _ _); reflexivity. }
    rewrite A, B. split; [reflexivity|].
    intros off n E. cbn [match_limits] in E. destruct (index_of _ _); [|discriminate].
    injection E as _ <-. reflexivity.
  - rewrite !andb_true_iff in F3. destruct F3 as [[[E32 Flt] F1] Eh].
    apply str_eqb_eq in E32. apply str_eqb_eq in Eh. rewrite E32.
    rewrite forallb_forall in F1, Flt. specialize (F1 c Ics). specialize (Flt c Ics). apply N.ltb_lt in Flt.
    assert (Lc : In c latin_chars).
    { unfold glyph_chars in Hc. apply in_app_or in Hc. destruct Hc as [Hc|Hc]; [exact Hc|].
      assert (A : forallb (fun c => 128 <=? c) hanzi_chars = true) by (vm_cast_no_check (eq_refl true)).
      rewrite forallb_forall in A. specialize (A c Hc). apply N.leb_le in A. lia. }
    assert (One : index_of (hash_all [c] (f_seed (blitstr_fonts Emoji))) (b_hash b) = None).
    { rewrite seeds. apply index_of_none. intros J. apply negb_true_iff in F1.
      change (existsb (N.eqb (hash_all [c] 0)) (b_hash b)) with (char_in (hash_all [c] 0) (b_hash b)) in F1.
      apply (proj2 (char_in_ok _ _)) in J. congruence. }
    assert (A : match_limits (blitstr_fonts Emoji) b (c :: t) [3; 2] = None).
    { cbn [match_limits]. rewrite !grapheme_cluster_spec. cbn [fst].
      destruct t as [|d [|e t]].
      - change (firstn (N.to_nat 3) [c]) with [c]. change (firstn (N.to_nat 2) [c]) with [c].
        rewrite One. reflexivity.
      - change (firstn (N.to_nat 3) [c; d]) with [c; d]. change (firstn (N.to_nat 2) [c; d]) with [c; d].
        rewrite Two by (inversion Ht; assumption). reflexivity.
      - change (firstn (N.to_nat 3) (c :: d :: e :: t)) with [c; d; e].
        change (firstn (N.to_nat 2) (c :: d :: e :: t)) with [c; d].
        assert (Hd : In d alphabet) by (inversion Ht; assumption).
        assert (He : In e alphabet) by (inversion Ht as [|? ? _ Ht']; inversion Ht'; assumption).
        assert (Three : index_of (hash_all [c; d; e] (f_seed (blitstr_fonts Emoji))) (b_hash b) = None).
        { rewrite seeds. apply index_of_none. intros J. rewrite Eh in J.
          destruct (three_only c d e Lc Flt Hd He J) as (k & I). exact (Hn [c; d; e] k t I eq_refl). }
        rewrite Three, Two by assumption. reflexivity. }
    assert (B : match_limits (blitstr_fonts Emoji) b [c] [3; 2] = None).
    { cbn [match_limits]. rewrite !grapheme_cluster_spec. cbn [fst].
      change (firstn (N.to_nat 3) [c]) with [c]. change (firstn (N.to_nat 2) [c]) with [c].
      rewrite One. reflexivity. }
    rewrite A, B. split; [reflexivity|discriminate].
Qed.

(** ** Hanzi *)
Lemma hanzi_in c : In [c] hanzi_index <-> In c hanzi_chars.
Proof.
  unfold hanzi_index. rewrite in_map_iff. split.
  - intros (d & E & I). injection E as ->. exact I.
  - intros I. exists c. split; [reflexivity|exact I].
Qed.

Definition no_block (gs : glyphset) (c : N) : bool :=
  match find (fun b => (b_low b <=? c) && (c <=? b_high b)) (f_blocks (blitstr_fonts gs)) with
  | None => true
  | Some _ => false
  end.
Lemma hanzi_blocks : forallb (fun c => no_block Bold c && no_block Regular c && no_block Small c) hanzi_chars = true.
Proof. vm_cast_no_check (eq_refl true). Qed.
Lemma hanzi_not_latin st c t : In c hanzi_chars -> glyph_for (blitstr_fonts (latin_set st)) (c :: t) = None.
Proof.
  intros H. pose proof hanzi_blocks as B. rewrite forallb_forall in B. specialize (B c H).
  rewrite !andb_true_iff in B. destruct B as [[B1 B2] B3].
  assert (N : no_block (latin_set st) c = true) by (destruct st; assumption).
  unfold no_block in N. unfold glyph_for. destruct (find _ _); [discriminate|reflexivity].
Qed.

Lemma hanzi_read c t : glyph_for (blitstr_fonts Hanzi) (c :: t) = glyph_for (blitstr_fonts Hanzi) [c].
Proof.
  unfold glyph_for. destruct (find _ (f_blocks (blitstr_fonts Hanzi))) as [b|] eqn:Eb; [|reflexivity].
  apply find_some in Eb. destruct Eb as [Hin _].
  pose proof (block_shapes Hanzi ltac:(discriminate)) as HB. rewrite Forall_forall in HB.
  destruct (HB b Hin) as [HL|(_ & _ & _ & _ & HN)]; [|congruence]. rewrite HL.
  cbn [match_limits]. rewrite !grapheme_cluster_spec. cbn [fst].
  change (firstn (N.to_nat 1) (c :: t)) with [c]. change (firstn (N.to_nat 1) [c]) with [c].
  destruct (index_of _ _); reflexivity.
Qed.

Lemma alphabet_next t : Forall (fun d => In d alphabet) t -> match t with d :: _ => ~ In d marks | [] => True end ->
  good_next t.
Proof.
  intros Ht Hm. destruct t as [|d t]; [exact I|]. inversion Ht as [|? ? Hd _]; subst.
  split; [apply alphabet_lt; exact Hd|]. split; [exact Hm|].
  assert (A : forallb (fun d => forallb (fun s => match s with [_; x] => negb (x =? d) | _ => true end) latin_collisions) alphabet = true)
    by (vm_cast_no_check (eq_refl true)).
  rewrite forallb_forall in A. exact (A d Hd).
Qed.
