(** * Properties C19 (ASCII), C29, C30, C31, C33, C48: the fonts and the lists they
    were generated from *)
From Coq Require Import ZArith.
From Verif Require Import Prim PrimFacts Geom Str M3Hash FontDefs Blit Spec SpecPaint SpecText SpecIndex.
From Verif Require Import ClearProofs IndexLatin IndexEmoji IndexHanzi IndexProofs PairProofs LatinText.
From Verif Require Import Fonts TextProofs FontsOk PropsClear PropsPaint.

(** C29: the n-th cluster of the index list is found at the n-th glyph record of DATA,
    and all of it is consumed; there are as many records as clusters. *)
Theorem C29_index_found : forall gs i cluster,
  nth_error (font_index gs) i = Some cluster ->
  exists off, nth_error (starts (blitstr_fonts gs)) i = Some off /\
    get_blit_pattern_offset (blitstr_fonts gs) cluster = Ret (Some (off, str_len cluster)).
Proof.
  intros gs i cluster H. destruct (index_found gs) as [L _].
  assert (Hi : (i < length (starts (blitstr_fonts gs)))%nat)
    by (rewrite <- L; apply nth_error_Some; congruence).
  exists (nth i (starts (blitstr_fonts gs)) 0). split; [apply nth_error_nth'; exact Hi|].
  apply lookup_index. exact H.
Qed.
Print Assumptions C29_index_found.

Theorem C29_one_record_each : forall gs,
  length (starts (blitstr_fonts gs)) = length (font_index gs).
Proof. intros gs. symmetry. apply (index_found gs). Qed.
Print Assumptions C29_one_record_each.

(** C29: an alias is found at the same record as its canonical cluster. *)
Theorem C29_alias_found : forall gs canon alias,
  In (canon, alias) (font_aliases gs) ->
  exists off, get_blit_pattern_offset (blitstr_fonts gs) canon = Ret (Some (off, str_len canon)) /\
              get_blit_pattern_offset (blitstr_fonts gs) alias = Ret (Some (off, str_len alias)).
Proof. exact lookup_alias. Qed.
Print Assumptions C29_alias_found.

Example C29_case :
  map (fun gs => (N.of_nat (length (font_index gs)), N.of_nat (length (font_aliases gs)))) [Small; Emoji; Hanzi]
    = [(206, 53); (3360, 354); (8377, 0)] /\
  nth_error (font_index Emoji) 1000 = Some [0x1F468; 0x1F3FF] /\
  nth_error (starts (blitstr_fonts Emoji)) 1000 = Some 26954 /\
  get_blit_pattern_offset (blitstr_fonts Emoji) [0x1F468; 0x1F3FF] = Ret (Some (26954, 8)).
Proof. repeat split; vm_compute; reflexivity. Qed.

(** C30 *)
Theorem C30_single_characters : forall gs c,
  scalar c ->
  ((exists r, get_blit_pattern_offset (blitstr_fonts gs) [c] = Ret (Some r)) <-> listed gs [c]).
Proof. exact single_listed. Qed.
Print Assumptions C30_single_characters.

Theorem C30_blocks_disjoint : forall gs i j b c,
  nth_error (f_blocks (blitstr_fonts gs)) i = Some b ->
  nth_error (f_blocks (blitstr_fonts gs)) j = Some c -> (i < j)%nat -> b_high b < b_low c.
Proof. exact blocks_apart. Qed.
Print Assumptions C30_blocks_disjoint.

(** U+4E01 is a hanzi of the index; U+4E02 is not, and is not found. *)
Example C30_case : In [0x4E01] (font_index Hanzi) /\ ~ listed Hanzi [0x4E02] /\
  get_blit_pattern_offset (blitstr_fonts Hanzi) [0x4E02] = Ret None.
Proof.
  split; [apply inb_in; vm_cast_no_check (eq_refl true)|]. split.
  - intros [H|H]; [|destruct H]. apply inb_in in H. vm_compute in H. discriminate.
  - vm_compute. reflexivity.
Qed.

(** C31, Latin and hanzi fonts: what a lookup consumes is a listed cluster or one of
    four pairs of characters (none assigned in Unicode 13) that collide. *)
Theorem C31_latin_hanzi : forall gs s off n,
  gs <> Emoji -> Forall scalar s ->
  get_blit_pattern_offset (blitstr_fonts gs) s = Ret (Some (off, n)) ->
  exists a t, s = a ++ t /\ str_len a = n /\
    (listed gs a \/
     gs <> Hanzi /\ In a [[0x30; 0x4E23F]; [0x48; 0xCDBB5]; [0x6B; 0x3E899]; [0x71; 0x6F0AC]]).
Proof. exact lookup_consumes. Qed.
Print Assumptions C31_latin_hanzi.

(** The full statement is false: the four pairs really are consumed as one cluster,
    and so are, in the emoji font, a cherry blossom followed by U+5411, a cat face
    followed by U+70E5, ... *)
Theorem C31_collisions_refuted : forall gs a,
  (gs = Emoji /\ In a [[0x1F338; 0x5411]; [0x1F4B3; 0x7DDE]; [0x1F414; 0x52A2]; [0x1F438; 0x70E5];
                       [0x1F443; 0x714F]; [0x1F192; 0x877F]; [0x1F920; 0x0FBA]])
  \/ ((gs = Small \/ gs = Regular \/ gs = Bold) /\
      In a [[0x30; 0x4E23F]; [0x48; 0xCDBB5]; [0x6B; 0x3E899]; [0x71; 0x6F0AC]]) ->
  Forall scalar a /\ ~ listed gs a /\
  exists off, get_blit_pattern_offset (blitstr_fonts gs) a = Ret (Some (off, str_len a)).
Proof.
  intros gs a H.
  assert (C : inb a (font_index gs) = false /\ inb a (map snd (font_aliases gs)) = false /\
              forallb (fun c => (c <? 0xD800) || ((0xE000 <=? c) && (c <? 0x110000))) a = true /\
              match get_blit_pattern_offset (blitstr_fonts gs) a with
              | Ret (Some (_, n)) => n =? str_len a | _ => false end = true).
  { destruct H as [[-> H]|[[-> | [-> | ->]] H]]; cbn [In] in H;
      repeat (destruct H as [<-|H]; [repeat split; vm_compute; reflexivity|]); destruct H. }
  destruct C as (C1 & C2 & C3 & C4). split; [|split].
  - apply Forall_forall. rewrite forallb_forall in C3. intros c Hc. specialize (C3 c Hc). unfold scalar. lia.
  - intros [L|L]; apply inb_in in L; congruence.
  - destruct (get_blit_pattern_offset _ _) as [[[off n]|]|]; try discriminate.
    apply N.eqb_eq in C4. subst n. exists off; reflexivity.
Qed.
Print Assumptions C31_collisions_refuted.

(** "He": the lookup consumes "H", which is listed. *)
Example C31_case :
  match get_blit_pattern_offset (blitstr_fonts Bold) [0x48; 0x65] with
  | Ret (Some (_, n)) => n = 1 | _ => False end /\
  match get_blit_pattern_offset (blitstr_fonts Bold) [0x48; 0xCDBB5] with
  | Ret (Some (_, n)) => n = 5 | _ => False end.
Proof. vm_compute. split; reflexivity. Qed.

(** C33: in any text over the Latin index, in every style. *)
Theorem C33_composed_decomposed : forall m fb clip c st s s',
  cfg_ok m -> is_frbuf fb -> paintable clip -> 36 <= clip_width clip ->
  same_letters s s' -> cursor_fits m blitstr_fonts c s -> cursor_fits m blitstr_fonts c s' ->
  paint_str m blitstr_fonts fb clip c st s = paint_str m blitstr_fonts fb clip c st s'.
Proof. exact paint_same_letters. Qed.
Print Assumptions C33_composed_decomposed.

(** "Déjà" with composed and with decomposed accents *)
Example C33_case : same_letters [0x44; 0xE9; 0x6A; 0xE0] [0x44; 0x65; 0x301; 0x6A; 0x61; 0x300] /\
  paint_str debug64 blitstr_fonts blank ex_clip ex_cursor StBold [0x44; 0xE9; 0x6A; 0xE0]
    <> Ret (blank, ex_cursor).
Proof.
  split.
  - apply sl_char; [apply inb_in; vm_compute; reflexivity|].
    apply (sl_forms [0xE9] [0x65; 0x301] [0xE9] [0x65; 0x301] [0x6A; 0xE0] [0x6A; 0x61; 0x300]);
      [vm_compute; tauto|auto|auto|].
    apply sl_char; [apply inb_in; vm_compute; reflexivity|].
    apply (sl_forms [0xE0] [0x61; 0x300] [0xE0] [0x61; 0x300] [] []); [vm_compute; tauto|auto|auto|constructor].
  - intros E. apply (f_equal (fun r => match r with Ret (_, c) => cx (c) | Panic => 0 end)) in E.
    vm_compute in E. discriminate.
Qed.

(** C19 for printable ASCII and newlines: no condition on the seam. *)
Theorem C19_ascii : forall m fb clip c st s1 s2 fb1 c1,
  cfg_ok m -> is_frbuf fb -> paintable clip -> 36 <= clip_width clip ->
  ascii_text s1 -> ascii_text s2 -> fits (length s1) blitstr_fonts clip st c s1 = true ->
  cursor_fits m blitstr_fonts c (s1 ++ s2) ->
  paint_str m blitstr_fonts fb clip c st s1 = Ret (fb1, c1) -> cursor_fits m blitstr_fonts c1 s2 ->
  paint_str m blitstr_fonts fb clip c st (s1 ++ s2) = paint_str m blitstr_fonts fb1 clip c1 st s2.
Proof.
  intros m fb clip c st s1 s2 fb1 c1 Hm Hfb Hclip Hw H1 H2 Hf Hc E Hc1.
  apply (paint_concat m blitstr_fonts fb clip c st s1 s2 fb1 c1); try assumption.
  - exact fonts_ok.
  - apply ascii_splits; [exact H1|]. apply ascii_text_lt; exact H2.
  - apply ascii_segmented; exact H2.
Qed.
Print Assumptions C19_ascii.

(** "It's 3 #1!\n" and "0*" (characters that also start emoji keycaps) *)
Example C19_ascii_case :
  ascii_text [73; 116; 39; 115; 32; 51; 32; 35; 49; 33; 10] /\ ascii_text [48; 42] /\
  fits 11 blitstr_fonts ex_clip StSmall ex_cursor [73; 116; 39; 115; 32; 51; 32; 35; 49; 33; 10] = true.
Proof.
  split; [|split; [|vm_compute; reflexivity]]; repeat (constructor; [unfold printable; lia|]); constructor.
Qed.

(** C48: ASCII text that fits the clip is painted one glyph per character, each being
    the glyph record at the character's place in the Latin index. *)
Theorem C48_ascii_one_glyph_each : forall clip st c s n,
  ascii_text s -> (length s <= n)%nat -> fits n blitstr_fonts clip st c s = true ->
  exists glyph,
    map (fun p => (p_set p, p_off p)) (fst (layout n blitstr_fonts clip st c s)) =
    map (fun ch => (latin_set st, glyph ch)) (filter (fun ch => negb (ch =? 10)) s) /\
    forall ch, printable ch -> exists i,
      nth_error latin_index i = Some [ch] /\
      glyph ch = nth i (starts (blitstr_fonts (latin_set st))) 0.
Proof.
  intros clip st c s n Hs Hn Hf. exists (latin_glyph st). split.
  - apply ascii_layout; assumption.
  - intros ch. apply latin_glyph_index.
Qed.
Print Assumptions C48_ascii_one_glyph_each.

Example C48_case : map p_off (fst (layout 3 blitstr_fonts ex_clip StSmall ex_cursor [72; 10; 105]))
  = [191; 359] /\ nth_error latin_index 40 = Some [72] /\ nth 40 (starts (blitstr_fonts Small)) 0 = 191.
Proof. vm_compute. repeat split; reflexivity. Qed.
