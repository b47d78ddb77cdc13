(** * xor_char and paint_str refine the layout specification *)
From Coq Require Import ZArith.
From Verif Require Export PaintRow LookupProofs XorProofs.

Lemma tallest_ge F gs : f_max_height (F gs) <= tallest F.
Proof. unfold tallest; destruct gs; lia. Qed.

Lemma tallest_le F : (forall gs, font_ok (F gs)) -> tallest F <= 255.
Proof.
  intros H. pose proof (fo_height _ (H Emoji)). pose proof (fo_height _ (H Bold)).
  pose proof (fo_height _ (H Regular)). pose proof (fo_height _ (H Small)).
  pose proof (fo_height _ (H Hanzi)). unfold tallest. lia.
Qed.

(** Room for one iteration *)
Definition room (m : cfg) (F : fontset) (c : cursor) : Prop :=
  cx c + 36 <= usize_limit m /\
  cy c + N.max (line_height c) (tallest F) + (tallest F + 1) < usize_limit m.

Lemma newline_spec m F clip c :
  cy c + N.max (line_height c) (tallest F) + 1 < usize_limit m ->
  newline m F clip c = Ret (break_line F clip c).
Proof.
  intros H. pose proof (tallest_ge F Small). unfold newline, break_line.
  replace (if line_height c <? f_max_height (F Small) then f_max_height (F Small) else line_height c)
    with (N.max (f_max_height (F Small)) (line_height c))
    by (destruct (N.ltb_spec (line_height c) (f_max_height (F Small))); lia).
  rewrite uadd_ok by lia. cbn [bind]. rewrite uadd_ok by lia. cbn [bind].
  rewrite N.add_assoc. reflexivity.
Qed.

(** [ink] on the frame buffer seen as one line of pixels *)
Definition lin_ink (F : fontset) (clip : cliprect) (p : placed) (a : N) : bool :=
  let f := F (p_set p) in
  (p_y p * 352 + p_x p <=? a) &&
  (let r := (a - p_x p) / 352 - p_y p in
   let i := (a - p_x p) mod 352 in
   (r <? gl_h f (p_off p)) && (p_y p + r <? py (cmax clip)) && (i <? gl_w f (p_off p))
   && (py (cmin clip) <=? p_y p + r) && glyph_pixel f (p_off p) i r).

Lemma clip_valid_test clip :
  paintable clip ->
  (LINES <? py (cmax clip)) || (WIDTH <? px (cmax clip)) || (px (cmax clip) <=? px (cmin clip)) = false.
Proof. unfold paintable, WIDTH, LINES; lia. Qed.

Lemma clip_invalid_test clip :
  ~ paintable clip ->
  (LINES <? py (cmax clip)) || (WIDTH <? px (cmax clip)) || (px (cmax clip) <=? px (cmin clip)) = true.
Proof. unfold paintable, WIDTH, LINES; lia. Qed.

Lemma xor_char_invalid m F fb clip c s gs :
  ~ paintable clip -> xor_char m F fb clip c s gs = Ret (fb, c, Some 0).
Proof. intros H; unfold xor_char; rewrite clip_invalid_test by assumption; reflexivity. Qed.

Lemma xor_char_miss m F fb clip c s gs :
  paintable clip -> font_ok (F gs) -> glyph_for (F gs) s = None ->
  xor_char m F fb clip c s gs = Ret (fb, c, None).
Proof.
  intros Hc Hf H; unfold xor_char; rewrite clip_valid_test by assumption.
  rewrite lookup_spec by assumption. rewrite H. reflexivity.
Qed.

Lemma xor_char_hit m F fb clip c s gs off n :
  cfg_ok m -> (forall gs, font_ok (F gs)) -> is_frbuf fb -> paintable clip ->
  room m F c ->
  glyph_for (F gs) s = Some (off, n) ->
  let c1 := seek F clip c (gl_w (F gs) off) in
  let p := placed_at F gs off c1 in
  if py (cmax clip) <? p_y p
  then xor_char m F fb clip c s gs = Ret (fb, c1, Some 0)
  else if overruns F clip p then xor_char m F fb clip c s gs = Panic
  else exists fb',
    xor_char m F fb clip c s gs = Ret (fb', after F gs off c1, Some (str_len (firstn n s))) /\
    is_frbuf fb' /\ forall a, lbit fb' a = xorb (lbit fb a) (lin_ink F clip p a).
Proof.
  intros Hm HF Hfb Hclip [Hrx Hry] Hlk.
  pose proof (limit_ge m Hm) as HL. pose proof (HF gs) as Hf.
  destruct (glyph_for_ok (F gs) s off n Hf Hlk) as [Hg Hn].
  pose proof (go_w _ _ Hg) as Hw. pose proof (go_height _ _ Hg) as Hh. pose proof (go_h _ _ Hg) as Hh1.
  pose proof (fo_height _ Hf) as Hmh. pose proof (tallest_ge F gs) as Htg.
  pose proof (tallest_ge F Small) as Hts. pose proof (tallest_le F HF) as Htl.
  unfold xor_char. rewrite clip_valid_test by assumption.
  rewrite lookup_spec, Hlk by assumption. cbn [bind lookup_result].
  rewrite header_spec by assumption. cbn [bind gw gh gy].
  replace (32 <? gl_w (F gs) off) with false by lia.
  destruct c as [[x y] lh]. cbn [cx cy cpt px py line_height] in *.
  unfold paintable, WIDTH, LINES in *.
  set (w := gl_w (F gs) off) in *. set (h := gl_h (F gs) off) in *.
  set (xs := N.max x (px (cmin clip))).
  assert (Ec : (if x <? px (cmin clip) then Cursor (Pt (px (cmin clip)) y) lh else Cursor (Pt x y) lh)
               = Cursor (Pt xs y) lh).
  { unfold xs. destruct (N.ltb_spec x (px (cmin clip))); f_equal; f_equal; lia. }
  rewrite Ec; clear Ec. cbn [cx cy cpt px py line_height].
  rewrite uadd_ok by lia. cbn [bind]. rewrite uadd_ok by lia. cbn [bind].
  rewrite uadd_ok by lia. cbn [bind].
  unfold seek. cbn [cx cy cpt px py line_height]. fold w. fold xs.
  replace (px (cmax clip) <=? xs + 1 + w + 2) with (px (cmax clip) <=? xs + w + 3) by lia.
  set (c1 := if px (cmax clip) <=? xs + w + 3 then break_line F clip (Cursor (Pt xs y) lh)
             else Cursor (Pt xs y) lh).
  match goal with |- context [bind (if px (cmax clip) <=? xs + w + 3 then ?a else ?b) _] =>
    assert (E1 : (if px (cmax clip) <=? xs + w + 3 then a else b) = Ret (c1, cx c1 + 1)) end.
  { unfold c1. destruct (N.leb_spec (px (cmax clip)) (xs + w + 3)).
    - rewrite newline_spec by (cbn [cx cy cpt px py line_height]; lia). cbn [bind].
      rewrite uadd_ok by (unfold break_line; cbn [cx cy cpt px py line_height]; lia). reflexivity.
    - reflexivity. }
  rewrite E1; clear E1. cbn [bind].
  assert (Hcx : cx c1 + 1 <= 336 /\ (cx c1 + 1 + w <= 336 \/ cx c1 = px (cmin clip))).
  { unfold c1. destruct (N.leb_spec (px (cmax clip)) (xs + w + 3));
      unfold break_line; cbn [cx cy cpt px py line_height]; lia. }
  assert (Hcy : cy c1 + tallest F < usize_limit m).
  { unfold c1. destruct (N.leb_spec (px (cmax clip)) (xs + w + 3));
      unfold break_line; cbn [cx cy cpt px py line_height]; lia. }
  clearbody c1. clear xs.
  rewrite uadd_ok by lia. cbn [bind]. rewrite uand1f_mod, !ushr5_div.
  rewrite usub_ok by lia. cbn [bind].
  rewrite uadd_ok by lia. cbn [bind].
  unfold placed_at. cbn [p_y].
  set (yo := gl_y (F gs) off) in *.
  destruct (N.ltb_spec (py (cmax clip)) (cy c1 + yo)) as [Hbelow|Hvis]; [reflexivity|].
  rewrite uadd_ok by lia. cbn [bind].
  set (ym := if cy c1 + yo + h <=? py (cmax clip) then h else py (cmax clip) - (cy c1 + yo)).
  assert (E1 : (if cy c1 + yo + h <=? py (cmax clip) then Ret h
                else usub m (py (cmax clip)) (cy c1 + yo)) = Ret ym).
  { unfold ym. destruct (_ <=? _); [reflexivity|]. apply usub_ok; lia. }
  rewrite E1; clear E1. cbn [bind].
  assert (Hym : ym <= h /\ cy c1 + yo + ym <= py (cmax clip) /\
                forall r, (r <? ym) = (r <? h) && (cy c1 + yo + r <? py (cmax clip))).
  { unfold ym. destruct (N.leb_spec (cy c1 + yo + h) (py (cmax clip)));
      (split; [lia|split; [lia|intros r; lia]]). }
  destruct Hym as (Hym1 & Hym2 & Hym3). clearbody ym.
  destruct (overruns F clip (Placed gs off (cx c1 + 1) (cy c1 + yo))) eqn:Hov;
    unfold overruns, STORED_WIDTH, LINES in Hov; cbn [p_set p_off p_x p_y] in Hov; fold w h in Hov.
  { pose proof (xor_rows_panics m Hm (F gs) Hf off Hg clip (cx c1 + 1) (cy c1 + yo) (proj1 Hcx) ym fb Hfb) as E.
    fold w in E. rewrite E; [reflexivity| | | | |].
    - exact Hym1.
    - specialize (Hym3 (535 - (cy c1 + yo))). lia.
    - specialize (Hym3 (535 - (cy c1 + yo))). lia.
    - lia.
    - lia. }
  destruct (xor_rows_spec m Hm (F gs) Hf off Hg clip (cx c1 + 1) (cy c1 + yo)
              (proj1 Hcx) ym fb Hfb) as (fb' & E & Hfb' & Hbits).
  { fold h; lia. } { lia. }
  { fold w. specialize (Hym3 (535 - (cy c1 + yo))). lia. }
  fold w in E. rewrite E. cbn [bind].
  rewrite uadd_ok by lia. cbn [bind]. rewrite uadd_ok by lia. cbn [bind].
  exists fb'. split; [|split; [assumption|]].
  - unfold after. fold w. rewrite N.add_assoc.
    replace (if line_height c1 <? f_max_height (F gs) then f_max_height (F gs) else line_height c1)
      with (N.max (line_height c1) (f_max_height (F gs)))
      by (destruct (N.ltb_spec (line_height c1) (f_max_height (F gs))); lia).
    reflexivity.
  - intros a. rewrite Hbits. unfold lin_ink. cbn [p_set p_off p_x p_y]. cbv zeta.
    rewrite Hym3. fold h w. reflexivity.
Qed.

(** ** One iteration *)

(** Left-over string when the chosen glyph is below the clip *)
Definition rest_below (s rest : str) (known : bool) : str := if known then s else rest.

Lemma tl_match s : s <> [] ->
  exists i, str_len (firstn 1 s) = i /\
  match nth_error (char_indices s) 1 with
  | Some (i, _) => slice_from s i
  | None => Ret s
  end = Ret (drop_char s).
Proof.
  intros Hs. exists (str_len (firstn 1 s)); split; [reflexivity|].
  rewrite second_index. destruct s as [|c [|d t]]; try reflexivity.
  replace (len_utf8 c) with (str_len (firstn 1 (c :: d :: t))).
  - rewrite slice_prefix. reflexivity.
  - simpl. lia.
Qed.

Section Step.
  Context (m : cfg) (F : fontset) (clip : cliprect) (st : glyphstyle).
  Context (Hm : cfg_ok m) (HF : fontset_ok F) (Hclip : paintable clip).

  Lemma step_glyph_any fb c s gs off rest known :
    is_frbuf fb -> room m F c -> s <> [] -> choose F st s = (gs, off, rest, known) ->
    let c1 := seek F clip c (gl_w (F gs) off) in
    let p := placed_at F gs off c1 in
    if py (cmax clip) <? p_y p
    then step_glyph m F clip st c s fb = Ret (fb, c1, rest_below s rest known)
    else if overruns F clip p then step_glyph m F clip st c s fb = Panic
    else exists fb',
      step_glyph m F clip st c s fb = Ret (fb', after F gs off c1, rest) /\
      is_frbuf fb' /\ forall a, lbit fb' a = xorb (lbit fb a) (lin_ink F clip p a).
  Proof.
    intros Hfb Hroom Hs Hch. pose proof (fs_fonts F HF) as Hfonts.
    pose proof (xor_char_hit m F fb clip c s) as Hhit.
    unfold choose in Hch. unfold step_glyph.
    destruct (glyph_for (F Emoji) s) as [[o n]|] eqn:E1.
    { injection Hch as <- <- <- <-.
      specialize (Hhit Emoji o n Hm Hfonts Hfb Hclip Hroom E1). cbv zeta in Hhit |- *.
      destruct (_ <? _).
      - rewrite Hhit. cbn [bind]. destruct s as [|ch t]; [congruence|]. reflexivity.
      - destruct (overruns F clip _); [rewrite Hhit; reflexivity|]. destruct Hhit as (fb' & E & Hfb' & Hb). rewrite E. cbn [bind].
        rewrite slice_prefix. cbn [bind]. eauto. }
    rewrite (xor_char_miss m F fb clip c s Emoji) by auto. cbn [bind].
    destruct (glyph_for (F (latin_set st)) s) as [[o n]|] eqn:E2.
    { injection Hch as <- <- <- <-.
      specialize (Hhit (latin_set st) o n Hm Hfonts Hfb Hclip Hroom E2). cbv zeta in Hhit |- *.
      destruct (_ <? _).
      - rewrite Hhit. cbn [bind]. destruct s as [|ch t]; [congruence|]. reflexivity.
      - destruct (overruns F clip _); [rewrite Hhit; reflexivity|]. destruct Hhit as (fb' & E & Hfb' & Hb). rewrite E. cbn [bind].
        rewrite slice_prefix. cbn [bind]. eauto. }
    rewrite (xor_char_miss m F fb clip c s (latin_set st)) by auto. cbn [bind].
    destruct (glyph_for (F Hanzi) s) as [[o n]|] eqn:E3.
    { injection Hch as <- <- <- <-.
      specialize (Hhit Hanzi o n Hm Hfonts Hfb Hclip Hroom E3). cbv zeta in Hhit |- *.
      destruct (_ <? _).
      - rewrite Hhit. cbn [bind]. destruct s as [|ch t]; [congruence|]. reflexivity.
      - destruct (overruns F clip _); [rewrite Hhit; reflexivity|]. destruct Hhit as (fb' & E & Hfb' & Hb). rewrite E. cbn [bind].
        rewrite slice_prefix. cbn [bind]. eauto. }
    rewrite (xor_char_miss m F fb clip c s Hanzi) by auto. cbn [bind].
    pose proof (fs_replacement F HF st) as Hrep.
    destruct (glyph_for (F (latin_set st)) replacement) as [[o n]|] eqn:E4; [|congruence].
    injection Hch as <- <- <- <-.
    pose proof (xor_char_hit m F fb clip c replacement (latin_set st) o n Hm Hfonts Hfb Hclip Hroom E4)
      as Hrhit.
    cbv zeta in Hrhit |- *. destruct (tl_match s Hs) as (i & _ & Htl).
    destruct (_ <? _).
    - rewrite Hrhit. cbn [bind]. unfold rest_below.
      destruct (nth_error (char_indices s) 1) as [[k u]|].
      + rewrite Htl. reflexivity.
      + injection Htl as Htl. rewrite <- Htl. reflexivity.
    - destruct (overruns F clip _); [rewrite Hrhit; reflexivity|].
      destruct Hrhit as (fb' & E & Hfb' & Hb). rewrite E. cbn [bind].
      destruct (nth_error (char_indices s) 1) as [[k u]|].
      + rewrite Htl. cbn [bind]. eauto.
      + injection Htl as Htl. rewrite <- Htl. eauto.
  Qed.

  (** ** The loop, for clips of any width: a glyph that is below the clip is tried again. *)
  Fixpoint layout_any (n : nat) (c : cursor) (s : str) : list placed * cursor :=
    match n with
    | O => ([], c)
    | S n' =>
        match s with
        | [] => ([], c)
        | ch :: t =>
            if ch =? 10 then layout_any n' (break_line F clip c) t
            else
              let '(gs, off, rest, known) := choose F st s in
              let c1 := seek F clip c (gl_w (F gs) off) in
              let p := placed_at F gs off c1 in
              if py (cmax clip) <? p_y p then layout_any n' c1 (rest_below s rest known)
              else
                let '(ps, c') := layout_any n' (after F gs off c1) rest in
                (p :: ps, c')
        end
    end.

  Fixpoint lin_inked (ps : list placed) (a : N) : bool :=
    match ps with
    | [] => false
    | p :: t => xorb (lin_ink F clip p a) (lin_inked t a)
    end.

  (** Room for n iterations *)
  Definition room_n (n : nat) (c : cursor) : Prop :=
    cx c + 36 <= usize_limit m /\
    cy c + N.max (line_height c) (tallest F) + (tallest F + 1) * N.of_nat n < usize_limit m.

  Lemma room_n_S n c : room_n (S n) c -> room m F c.
  Proof. unfold room_n, room; intros [H1 H2]; split; [assumption|]. nia. Qed.

  Lemma room_break n c : room_n (S n) c -> room_n n (break_line F clip c).
  Proof.
    pose proof (limit_ge m Hm) as HL. pose proof (tallest_ge F Small).
    unfold room_n, break_line; cbn [cx cy cpt px py line_height]; intros [H1 H2].
    destruct Hclip as [Hx Hy]. unfold WIDTH in *. split; [lia|]. nia.
  Qed.

  Lemma seek_room n c w : room_n (S n) c -> room_n n (seek F clip c w) .
  Proof.
    intros H. pose proof (limit_ge m Hm) as HL. unfold seek.
    set (c0 := Cursor (Pt (N.max (cx c) (px (cmin clip))) (cy c)) (line_height c)).
    assert (H0 : room_n (S n) c0).
    { destruct Hclip as [Hx Hy]. unfold WIDTH in *. unfold room_n in *.
      unfold c0; cbn [cx cy cpt px py line_height]. lia. }
    destruct (_ <=? _); [apply room_break; assumption|].
    unfold room_n in *. split; [lia|]. nia.
  Qed.

  Lemma seek_x c w : cx (seek F clip c w) = px (cmin clip) \/ cx (seek F clip c w) + w + 3 < px (cmax clip).
  Proof.
    unfold seek. match goal with |- context [if ?t then _ else _] => destruct t eqn:E end.
    - left; reflexivity.
    - right. lia.
  Qed.

  Lemma after_room n c gs off :
    glyph_ok (F gs) off -> 
    (cx c = px (cmin clip) \/ cx c + gl_w (F gs) off + 3 < px (cmax clip)) ->
    room_n n c -> room_n n (after F gs off c).
  Proof.
    intros Hg Hx [H1 H2]. pose proof (limit_ge m Hm) as HL. pose proof (tallest_ge F gs).
    pose proof (go_w _ _ Hg). destruct Hclip as [Hcx Hcy]. unfold WIDTH in *.
    unfold room_n, after; cbn [cx cy cpt px py line_height]. split; [lia|]. nia.
  Qed.

  Lemma choose_ok s gs off rest known :
    s <> [] -> choose F st s = (gs, off, rest, known) -> glyph_ok (F gs) off.
  Proof.
    intros Hs. unfold choose. pose proof (fs_fonts F HF) as Hfonts.
    destruct (glyph_for (F Emoji) s) as [[o n]|] eqn:E1.
    { intros H; injection H as <- <- <- <-. apply (glyph_for_ok _ _ _ _ (Hfonts Emoji) E1). }
    destruct (glyph_for (F (latin_set st)) s) as [[o n]|] eqn:E2.
    { intros H; injection H as <- <- <- <-. apply (glyph_for_ok _ _ _ _ (Hfonts _) E2). }
    destruct (glyph_for (F Hanzi) s) as [[o n]|] eqn:E3.
    { intros H; injection H as <- <- <- <-. apply (glyph_for_ok _ _ _ _ (Hfonts _) E3). }
    pose proof (fs_replacement F HF st) as Hrep.
    destruct (glyph_for (F (latin_set st)) replacement) as [[o n]|] eqn:E4; [|congruence].
    intros H; injection H as <- <- <- <-. apply (glyph_for_ok _ _ _ _ (Hfonts _) E4).
  Qed.

  Lemma paint_loop_spec n fb c s :
    is_frbuf fb -> room_n n c ->
    if existsb (overruns F clip) (fst (layout_any n c s)) then paint_loop n m F clip st fb c s = Panic
    else exists fb', paint_loop n m F clip st fb c s = Ret (fb', snd (layout_any n c s)) /\
      is_frbuf fb' /\
      forall a, lbit fb' a = xorb (lbit fb a) (lin_inked (fst (layout_any n c s)) a).
  Proof.
    revert fb c s; induction n as [|n IH]; intros fb c s Hfb Hroom; cbn [paint_loop layout_any].
    - exists fb; split; [reflexivity|split; [assumption|]]. intros; rewrite xorb_false_r; reflexivity.
    - destruct s as [|ch t].
      { exists fb; split; [reflexivity|split; [assumption|]]. intros; rewrite xorb_false_r; reflexivity. }
      rewrite paint_step_cases.
      destruct (N.eqb_spec ch 10) as [->|Hn].
      + pose proof (room_n_S n c Hroom) as [R1 R2].
        rewrite newline_spec by lia. cbn [bind].
        change (slice_from (10 :: t) 1) with (slice_from (10 :: t) (str_len (firstn 1 (10 :: t)))).
        rewrite slice_prefix. cbn [bind skipn].
        apply IH; [assumption|apply room_break; assumption].
      + destruct (choose F st (ch :: t)) as [[[gs off] rest] known] eqn:Ech.
        pose proof (step_glyph_any fb c (ch :: t) gs off rest known Hfb
                      (room_n_S n c Hroom) ltac:(discriminate) Ech) as Hstep.
        cbv zeta in Hstep.
        set (c1 := seek F clip c (gl_w (F gs) off)) in *.
        assert (Hr1 : room_n n c1) by (apply seek_room; assumption).
        destruct (py (cmax clip) <? p_y (placed_at F gs off c1)).
        * rewrite Hstep. cbn [bind]. apply IH; assumption.
        * destruct (overruns F clip (placed_at F gs off c1)) eqn:Hov.
          { rewrite Hstep. destruct (layout_any n (after F gs off c1) rest) as [ps c'].
            cbn [fst existsb]. rewrite Hov. reflexivity. }
          destruct Hstep as (fb1 & E & Hfb1 & Hb1). rewrite E. cbn [bind].
          assert (Hg : glyph_ok (F gs) off) by (eapply choose_ok; [|exact Ech]; discriminate).
          specialize (IH fb1 (after F gs off c1) rest Hfb1
            (after_room n c1 gs off Hg (seek_x c (gl_w (F gs) off)) Hr1)).
          destruct (layout_any n (after F gs off c1) rest) as [ps c'].
          cbn [fst snd lin_inked existsb] in *. rewrite Hov. cbn [orb].
          destruct (existsb (overruns F clip) ps); [exact IH|].
          destruct IH as (fb' & E' & Hfb' & Hb'). exists fb'. rewrite E'. split; [reflexivity|split; [assumption|]].
          intros a. rewrite Hb', Hb1. apply xorb_assoc_reverse.
  Qed.

  Lemma cursor_fits_room c s : cursor_fits m F c s -> room_n (N.to_nat (str_len s)) c.
  Proof.
    unfold cursor_fits, room_n. intros [H1 H2]. split; [assumption|]. nia.
  Qed.

  Lemma paint_str_all fb c s :
    is_frbuf fb -> cursor_fits m F c s ->
    if existsb (overruns F clip) (fst (layout_any (N.to_nat (str_len s)) c s))
    then paint_str m F fb clip c st s = Panic
    else exists fb', paint_str m F fb clip c st s
                = Ret (fb', snd (layout_any (N.to_nat (str_len s)) c s)) /\
      is_frbuf fb' /\
      forall a, lbit fb' a
        = xorb (lbit fb a) (lin_inked (fst (layout_any (N.to_nat (str_len s)) c s)) a).
  Proof. intros; apply paint_loop_spec; [assumption|apply cursor_fits_room; assumption]. Qed.

  (** With [clip_fits] no glyph overruns *)
  Context (Hfit : clip_fits clip).

  Lemma glyph_fits gs off c : glyph_ok (F gs) off ->
    overruns F clip (placed_at F gs off (seek F clip c (gl_w (F gs) off))) = false.
  Proof.
    intros Hg. pose proof (go_w _ _ Hg). pose proof (seek_x c (gl_w (F gs) off)).
    destruct Hclip as [H1 H2]. unfold overruns, clip_fits, placed_at, STORED_WIDTH, LINES, WIDTH in *.
    cbn [p_set p_off p_x p_y]. lia.
  Qed.

  Lemma step_glyph_spec fb c s gs off rest known :
    is_frbuf fb -> room m F c -> s <> [] -> choose F st s = (gs, off, rest, known) ->
    let c1 := seek F clip c (gl_w (F gs) off) in
    let p := placed_at F gs off c1 in
    if py (cmax clip) <? p_y p
    then step_glyph m F clip st c s fb = Ret (fb, c1, rest_below s rest known)
    else exists fb',
      step_glyph m F clip st c s fb = Ret (fb', after F gs off c1, rest) /\
      is_frbuf fb' /\ forall a, lbit fb' a = xorb (lbit fb a) (lin_ink F clip p a).
  Proof.
    intros Hfb Hroom Hs Hch. pose proof (step_glyph_any fb c s gs off rest known Hfb Hroom Hs Hch) as H.
    cbv zeta in *. rewrite (glyph_fits gs off c) in H by (eapply choose_ok; [exact Hs|exact Hch]). exact H.
  Qed.

  Lemma layout_any_fits n c s : existsb (overruns F clip) (fst (layout_any n c s)) = false.
  Proof.
    revert c s; induction n as [|n IH]; intros c s; cbn [layout_any]; [reflexivity|].
    destruct s as [|ch t]; [reflexivity|].
    destruct (ch =? 10); [apply IH|].
    destruct (choose F st (ch :: t)) as [[[gs off] rest] known] eqn:Ech.
    cbv zeta. destruct (_ <? _); [apply IH|].
    specialize (IH (after F gs off (seek F clip c (gl_w (F gs) off))) rest).
    destruct (layout_any n _ rest) as [ps c']. cbn [fst existsb] in *. rewrite IH, orb_false_r.
    apply glyph_fits. eapply choose_ok; [|exact Ech]; discriminate.
  Qed.

  Lemma paint_str_any fb c s :
    is_frbuf fb -> cursor_fits m F c s ->
    exists fb', paint_str m F fb clip c st s
                = Ret (fb', snd (layout_any (N.to_nat (str_len s)) c s)) /\
      is_frbuf fb' /\
      forall a, lbit fb' a
        = xorb (lbit fb a) (lin_inked (fst (layout_any (N.to_nat (str_len s)) c s)) a).
  Proof.
    intros Hfb Hc. pose proof (paint_str_all fb c s Hfb Hc) as H. rewrite layout_any_fits in H. exact H.
  Qed.
End Step.
