(** * Painting a text shows the pictures of its clusters side by side *)
From Coq Require Import ZArith.
From Verif Require Import PrimFacts Str M3Hash Geom FontDefs Blit Spec SpecPaint SpecCodegen SpecSheet SpecIndex SpecPictures SpecSetting.
From Verif Require Import Codegen Fonts LookupProofs IndexCheck IndexProofs FontsOk TrimProofs CgMore CgGenerate SheetCells Sheets SheetFonts PictureProofs.
From Verif Require Import IndexLatin IndexHanzi PairProofs MixedText PropsPaint FbFacts.
From Verif Require Import SpecPaint SpecSetting.

(** ** The part of a picture a glyph record has *)
Lemma filter_none {A} (P : A -> bool) l : (forall a, In a l -> P a = false) -> filter P l = [].
Proof.
  induction l as [|a l IH]; intros H; [reflexivity|]. cbn [filter].
  rewrite (H a (or_introl eq_refl)). apply IH. intros b I. apply H. right; exact I.
Qed.
Lemma filter_first P n x : (x < n)%nat -> P x = true -> (forall k, (k < x)%nat -> P k = false) ->
  exists more, filter P (seq 0 n) = x :: more.
Proof.
  intros Hx Px Hb. replace n with (x + S (n - S x))%nat by lia.
  rewrite seq_app, filter_app. rewrite filter_none by (intros k I; apply in_seq in I; apply Hb; lia).
  cbn [app seq filter Nat.add]. rewrite Px. eexists. reflexivity.
Qed.
Lemma filter_last P n y d : (y < n)%nat -> P y = true -> (forall k, (y < k < n)%nat -> P k = false) ->
  last (filter P (seq 0 n)) d = y.
Proof.
  intros Hy Py Ha. replace n with (y + S (n - S y))%nat by lia.
  rewrite seq_app, filter_app. cbn [seq filter Nat.add]. rewrite Py.
  rewrite (filter_none P (seq (S y) (n - S y))) by (intros k I; apply in_seq in I; apply Ha; lia).
  apply last_last.
Qed.

Section Part.
  Variables (p : list (list Z)) (n w h x y : nat).
  Hypothesis inside : forall r c, is_set p r c = true -> (y <= r < y + h)%nat /\ (x <= c < x + w)%nat.
  Hypothesis fit : (x + w <= n)%nat /\ (y + h <= n)%nat.

  Let col c := existsb (fun r => is_set p r c) (seq 0 n).
  Let row r := existsb (fun c => is_set p r c) (seq 0 n).

  Lemma col_inked c : ~ col_blank p c -> col c = true.
  Proof.
    intros H. destruct (col c) eqn:E; [reflexivity|]. exfalso. apply H. intros r.
    destruct (is_set p r c) eqn:S; [|reflexivity]. destruct (inside r c S) as [I1 I2].
    assert (T : col c = true) by (apply existsb_exists; exists r; split; [apply in_seq; lia|exact S]). congruence.
  Qed.
  Lemma row_inked r : ~ row_blank p r -> row r = true.
  Proof.
    intros H. destruct (row r) eqn:E; [reflexivity|]. exfalso. apply H. intros c.
    destruct (is_set p r c) eqn:S; [|reflexivity]. destruct (inside r c S) as [I1 I2].
    assert (T : row r = true) by (apply existsb_exists; exists c; split; [apply in_seq; lia|exact S]). congruence.
  Qed.
  Lemma col_outside c : (c < x \/ x + w <= c)%nat -> col c = false.
  Proof.
    intros H. destruct (col c) eqn:E; [|reflexivity]. apply existsb_exists in E. destruct E as (r & _ & S).
    destruct (inside r c S) as [I1 I2]. lia.
  Qed.
  Lemma row_outside r : (r < y \/ y + h <= r)%nat -> row r = false.
  Proof.
    intros H. destruct (row r) eqn:E; [|reflexivity]. apply existsb_exists in E. destruct E as (c & _ & S).
    destruct (inside r c S) as [I1 I2]. lia.
  Qed.

  Lemma columns_rows : (0 < w)%nat -> ~ col_blank p x -> ~ col_blank p (x + w - 1) -> ~ row_blank p y -> (0 < h)%nat ->
    exists more more', inked_columns n p = x :: more /\ last more x = (x + w - 1)%nat /\ inked_rows n p = y :: more'.
  Proof.
    intros Hw B1 B2 B3 Hh. unfold inked_columns, inked_rows.
    change (fun c => existsb (fun r => is_set p r c) (seq 0 n)) with col.
    change (fun r => existsb (fun c => is_set p r c) (seq 0 n)) with row.
    destruct (filter_first col n x) as (more & E); [lia|apply col_inked; exact B1|intros; apply col_outside; lia|].
    destruct (filter_first row n y) as (more' & E'); [lia|apply row_inked; exact B3|intros; apply row_outside; lia|].
    exists more, more'. split; [exact E|]. split; [|exact E'].
    rewrite <- (filter_last col n (x + w - 1) x); [rewrite E; destruct more as [|m more]; reflexivity|lia| |].
    - apply col_inked; exact B2.
    - intros k Hk. apply col_outside. lia.
  Qed.
End Part.

Definition limits_at (gs : glyphset) (row col : Z) : limits :=
  match gs with
  | Hanzi => Limits 0 0 0 0
  | Emoji => Limits 32 32 32 32
  | Bold | Regular => if ((col =? 2) && (row =? 0))%Z%bool then Limits 14 13 14 13 else Limits 30 30 30 30
  | Small => if ((col =? 2) && (row =? 0))%Z%bool then Limits 11 10 11 10 else Limits 24 24 24 24
  end.
Lemma limits_at_ok gs row col : trim_limits (font_spec gs) row col = limits_at gs row col.
Proof. destruct gs; reflexivity. Qed.
Lemma size_ok gs : cell_size (font_spec gs) = size gs.
Proof. destruct gs; reflexivity. Qed.

(** The picture in row 0, column 2 is blank *)
Definition blankb (p : list (list Z)) : bool := forallb (forallb (Z.eqb 0)) p.
Lemma blankb_ok p : blankb p = true -> forall r c, is_set p r c = false.
Proof.
  intros H r c. unfold is_set. unfold blankb in H. rewrite forallb_forall in H.
  destruct (nth_in_or_default r p []) as [I| ->].
  - specialize (H _ I). rewrite forallb_forall in H. destruct (nth_in_or_default c (nth r p []) 0%Z) as [J| ->]; [|reflexivity].
    specialize (H _ J). apply Z.eqb_eq in H. rewrite <- H. reflexivity.
  - destruct c; reflexivity.
Qed.
Lemma space_blank gs i : gs <> Emoji -> gs <> Hanzi -> picture_place gs i = (0, 2)%nat ->
  forall r c, is_set (picture gs i) r c = false.
Proof.
  intros H1 H2 E. apply blankb_ok. unfold picture. rewrite E. destruct gs; try congruence; vm_compute; reflexivity.
Qed.

Lemma inky_dec p n : (forall r c, is_set p r c = true -> (r < n)%nat /\ (c < n)%nat) -> inky p \/ (forall r c, is_set p r c = false).
Proof.
  intros H. destruct (existsb (fun r => existsb (fun c => is_set p r c) (seq 0 n)) (seq 0 n)) eqn:E.
  - left. apply existsb_exists in E. destruct E as (r & _ & E). apply existsb_exists in E. destruct E as (c & _ & E).
    exists r, c. exact E.
  - right. intros r c. destruct (is_set p r c) eqn:S; [|reflexivity]. destruct (H r c S) as [I1 I2].
    enough (existsb (fun r => existsb (fun c => is_set p r c) (seq 0 n)) (seq 0 n) = true) by congruence.
    apply existsb_exists. exists r. split; [apply in_seq; lia|].
    apply existsb_exists. exists c. split; [apply in_seq; lia|exact S].
Qed.

Lemma blank_part gs i : gs <> Hanzi -> (forall r c, is_set (picture gs i) r c = false) ->
  part_used gs i = Part 0 4 (N.of_nat (size gs / 2 - 1)).
Proof.
  intros H B. unfold part_used. 
  assert (E : inked_columns (size gs) (picture gs i) = []).
  { unfold inked_columns. apply filter_none. intros c _.
    destruct (existsb _ _) eqn:E; [|reflexivity]. apply existsb_exists in E. destruct E as (r & _ & E).
    rewrite B in E. discriminate. }
  destruct gs; try congruence; cbv zeta; rewrite E; reflexivity.
Qed.

Lemma part_drawn gs i cl : pictured gs i cl ->
  exists off, glyph_for (blitstr_fonts gs) cl = Some (off, length cl) /\
    draws (blitstr_fonts gs) off (picture gs i) (first_column (part_used gs i)) /\
    gl_w (blitstr_fonts gs) off = width (part_used gs i) /\
    gl_y (blitstr_fonts gs) off = first_row (part_used gs i).
Proof.
  intros (canon & E & H). destruct (charspec_of gs i canon E) as (cs & Ec).
  destruct (sheet_glyphs gs (fun _ _ => 0) i cs canon Ec E) as (off & x & G & D & T & I).
  cbv zeta in T, I. rewrite <- (picture_cell gs i cs Ec) in D, T, I. pose proof (charspec_place gs i cs Ec) as Pl.
  rewrite limits_at_ok in T, I. rewrite size_ok in T, I.
  exists off. split.
  { destruct H as [->|H]; [exact G|]. destruct (alias_found gs canon cl H) as (off' & G1 & G2). rewrite G2. congruence. }
  clear G H. set (f := blitstr_fonts gs) in *. set (p := picture gs i) in *.
  destruct T as [[F1 F2] [L1 L2] [R1 R2] [T1 T2] [B1 B2]].
  set (w := N.to_nat (gl_w f off)) in *. set (h := N.to_nat (gl_h f off)) in *. set (y := N.to_nat (gl_y f off)) in *.
  assert (Ew : gl_w f off = N.of_nat w) by (unfold w; rewrite Nnat.N2Nat.id; reflexivity).
  assert (Eh : gl_h f off = N.of_nat h) by (unfold h; rewrite Nnat.N2Nat.id; reflexivity).
  assert (Ey : gl_y f off = N.of_nat y) by (unfold y; rewrite Nnat.N2Nat.id; reflexivity).
  assert (In_ : forall r c, is_set p r c = true -> (y <= r < y + h)%nat /\ (x <= c < x + w)%nat).
  { intros r c S. destruct D as [_ Dc]. destruct (Dc r c S) as [D1 D2]. lia. }
  (* ink, and limits that stop nothing *)
  assert (Inky : inky p -> gs <> Hanzi -> limits_at gs (cs_row cs) (cs_col cs) =
                   Limits (Z.of_nat (size gs)) (Z.of_nat (size gs)) (Z.of_nat (size gs)) (Z.of_nat (size gs)) ->
                 draws f off p (first_column (part_used gs i)) /\ gl_w f off = width (part_used gs i) /\ gl_y f off = first_row (part_used gs i)).
  { intros (r0 & c0 & S0) Hg El. rewrite El in *. cbn [l_left l_right l_top l_bottom] in *. rewrite Nat2Z.id in *.
    destruct (In_ r0 c0 S0) as [I1 I2].
    destruct L2 as [L2|L2]; [lia|]. destruct R2 as [R2|R2]; [lia|]. destruct T2 as [T2|T2]; [lia|].
    destruct (columns_rows p (size gs) w h x y In_ (conj F1 F2)) as (more & more' & E1 & E2 & E3); try assumption; try lia.
    assert (Ep : part_used gs i = Part x (N.of_nat w) (N.of_nat y)).
    { unfold part_used. fold p. destruct gs; try congruence; cbv zeta; rewrite E1, E3; f_equal; rewrite E2; f_equal; lia. }
    rewrite Ep. cbn [first_column width first_row]. split; [exact D|]. split; assumption. }
  assert (Blank : (forall r c, is_set p r c = false) -> gs <> Hanzi -> w = 4%nat -> y = (size gs / 2 - 1)%nat ->
                 draws f off p (first_column (part_used gs i)) /\ gl_w f off = width (part_used gs i) /\ gl_y f off = first_row (part_used gs i)).
  { intros B Hg W4 Y4. rewrite (blank_part gs i Hg B). cbn [first_column width first_row]. split; [|split].
    - destruct D as [Dp Dc]. split; [|exact (fun r c S => False_ind _ (eq_true_false_abs _ S (B r c)))].
      intros r c Hr Hc. rewrite (Dp r c Hr Hc), !B. reflexivity.
    - rewrite Ew, W4. reflexivity.
    - rewrite Ey, Y4. reflexivity. }
  assert (Full : limits_at gs (cs_row cs) (cs_col cs) =
                   Limits (Z.of_nat (size gs)) (Z.of_nat (size gs)) (Z.of_nat (size gs)) (Z.of_nat (size gs)) -> inky p).
  { intros El. destruct I as [I|[I _]]; [exact I|]. rewrite El in I. cbn [l_left l_right] in I. lia. }
  assert (Lat : gs <> Emoji -> gs <> Hanzi -> (cs_col cs = 2)%Z -> (cs_row cs = 0)%Z -> forall r c, is_set p r c = false).
  { intros N1 N2 C R. apply space_blank; [exact N1|exact N2|]. rewrite Pl, C, R. reflexivity. }
  assert (Cb : (forall r c, is_set p r c = false) -> forall c, col_blank p c) by (intros B c r; apply B).
  assert (Rb : (forall r c, is_set p r c = false) -> forall r, row_blank p r) by (intros B r c; apply B).
  assert (Space : forall lr tb, gs <> Emoji -> gs <> Hanzi -> (cs_col cs = 2)%Z -> (cs_row cs = 0)%Z ->
     limits_at gs (cs_row cs) (cs_col cs) = Limits tb lr tb lr ->
     (size gs = 2 * Z.to_nat lr + 4)%nat -> Z.to_nat tb = (size gs / 2 - 1)%nat ->
     draws f off p (first_column (part_used gs i)) /\ gl_w f off = width (part_used gs i) /\ gl_y f off = first_row (part_used gs i)).
  { intros lr tb N1 N2 C R El S1 S2. pose proof (Lat N1 N2 C R) as B. rewrite El in *. cbn [l_left l_right l_top l_bottom] in *.
    destruct L2 as [L2|L2]; [|destruct (L2 (Cb B _))]. destruct R2 as [R2|R2]; [|destruct (R2 (Cb B _))].
    destruct T2 as [T2|T2]; [|destruct (T2 (Rb B _))]. apply Blank; try assumption; lia. }
  assert (Latin : gs = Bold \/ gs = Regular \/ gs = Small ->
     draws f off p (first_column (part_used gs i)) /\ gl_w f off = width (part_used gs i) /\ gl_y f off = first_row (part_used gs i)).
  { intros Hg. assert (N1 : gs <> Emoji) by (destruct Hg as [->|[->| ->]]; discriminate).
    assert (N2 : gs <> Hanzi) by (destruct Hg as [->|[->| ->]]; discriminate).
    destruct (((cs_col cs =? 2) && (cs_row cs =? 0))%Z%bool) eqn:Sp.
    - apply andb_prop in Sp. destruct Sp as [C R]. apply Z.eqb_eq in C, R.
      destruct Hg as [Hg|[Hg|Hg]].
      + apply (Space 13%Z 14%Z N1 N2 C R); rewrite Hg, ?C, ?R; reflexivity.
      + apply (Space 13%Z 14%Z N1 N2 C R); rewrite Hg, ?C, ?R; reflexivity.
      + apply (Space 10%Z 11%Z N1 N2 C R); rewrite Hg, ?C, ?R; reflexivity.
    - assert (El : limits_at gs (cs_row cs) (cs_col cs) =
                   Limits (Z.of_nat (size gs)) (Z.of_nat (size gs)) (Z.of_nat (size gs)) (Z.of_nat (size gs))).
      { unfold limits_at. destruct Hg as [-> |[-> | ->]]; rewrite Sp; reflexivity. }
      apply Inky; [apply Full; exact El|exact N2|exact El]. }
  destruct gs eqn:Eg.
  - apply Inky; [apply Full; reflexivity|discriminate|reflexivity].
  - apply Latin. left; reflexivity.
  - apply Latin. right; left; reflexivity.
  - apply Latin. right; right; reflexivity.
  - cbn [limits_at l_left l_right l_top l_bottom] in *. change (Z.to_nat 0) with O in *. change (size Hanzi) with 32%nat in *.
    unfold part_used. cbn [first_column width first_row].
    assert (x = O) by lia. subst x. split; [exact D|]. rewrite Ew, Ey. split; [f_equal; lia|f_equal; lia].
Qed.

(** ** Reading *)
Lemma known_glyph gs s n : known gs s n <-> exists off k, glyph_for (blitstr_fonts gs) s = Some (off, k) /\ str_len (firstn k s) = n.
Proof.
  unfold known. rewrite lookup_spec by apply all_fonts_ok. split.
  - intros (off & E). destruct (glyph_for _ s) as [[o k]|]; [|discriminate]. cbn [lookup_result] in E.
    injection E as <- <-. exists o, k. split; reflexivity.
  - intros (off & k & -> & <-). exists off. reflexivity.
Qed.
Lemma unknown_glyph gs s : unknown_to gs s <-> glyph_for (blitstr_fonts gs) s = None.
Proof.
  unfold unknown_to. rewrite lookup_spec by apply all_fonts_ok.
  destruct (glyph_for _ s) as [[o k]|]; cbn [lookup_result]; split; intros E; congruence.
Qed.

(** A font that finds the cluster cl at the start of a text finds the same glyph as in
    cl alone *)
Lemma same_glyph f cl t off off' k : cl <> [] -> glyph_for f (cl ++ t) = Some (off, k) -> firstn k (cl ++ t) = cl ->
  glyph_for f cl = Some (off', length cl) -> off = off'.
Proof.
  intros Hc E F E'. unfold glyph_for in *. destruct cl as [|c cl]; [congruence|]. cbn [app] in *.
  destruct (find _ (f_blocks f)) as [b|]; [|discriminate].
  apply match_limits_in in E. destruct E as (l & k0 & _ & _ & E & O).
  apply match_limits_in in E'. destruct E' as (l' & k1 & _ & _ & E' & O').
  rewrite F in E. rewrite firstn_all in E'. congruence.
Qed.

Lemma pictured_plain gs i cl : pictured gs i cl -> cl <> [] /\ nth_error cl 0 <> Some 10.
Proof.
  intros P. pose proof (pictured_in gs i cl P) as I. apply plain_ok.
  assert (LT : In cl (IndexLatin.latin_index ++ map snd IndexLatin.latin_aliases) -> plain cl = true).
  { intros J. pose proof latin_checked as C. rewrite forallb_forall in C. specialize (C cl J).
    apply andb_prop in C. apply C. }
  destruct gs; try exact (LT I).
  - pose proof emoji_plain as C. rewrite forallb_forall in C. exact (C cl I).
  - cbn [font_aliases map] in I. rewrite app_nil_r in I. pose proof hanzi_first as C.
    rewrite forallb_forall in C. specialize (C cl I). rewrite !andb_true_iff in C. apply C.
Qed.

Lemma found_choice st gs i cl t off : pictured gs i cl -> found_first st gs cl (cl ++ t) ->
  glyph_for (blitstr_fonts gs) cl = Some (off, length cl) ->
  choose blitstr_fonts st (cl ++ t) = (gs, off, t, true).
Proof.
  intros P [K W] G. destruct (pictured_plain gs i cl P) as [Hc _].
  apply known_glyph in K. destruct K as (o & k & E & L).
  pose proof (slice_prefix k (cl ++ t)) as S. rewrite L, slice_app in S. injection S as S.
  assert (Fi : firstn k (cl ++ t) = cl).
  { pose proof (firstn_skipn k (cl ++ t)) as J. rewrite <- S in J. apply app_inv_tail in J. exact J. }
  pose proof (same_glyph _ cl t o off k Hc E Fi G). subst o.
  destruct gs; cbn in W; unfold choose.
  - rewrite E, <- S. reflexivity.
  - destruct W as [<- W]. apply unknown_glyph in W. rewrite W, E, <- S. reflexivity.
  - destruct W as [<- W]. apply unknown_glyph in W. rewrite W, E, <- S. reflexivity.
  - destruct W as [<- W]. apply unknown_glyph in W. rewrite W, E, <- S. reflexivity.
  - destruct W as [W1 W2]. apply unknown_glyph in W1, W2. rewrite W1, W2, E, <- S. reflexivity.
Qed.

(** ** Setting *)
Lemma heights gs : f_max_height (blitstr_fonts gs) = N.of_nat (size gs).
Proof. destruct gs; reflexivity. Qed.
Lemma small_height : f_max_height (blitstr_fonts Small) = 24.
Proof. reflexivity. Qed.

(** A glyph placed where the setting has its picture *)
Definition same_place (p : placed) (s : spot) : Prop :=
  p_set p = s_set s /\ p_x p = s_left s /\
  let f := blitstr_fonts (p_set p) in let u := part_used (s_set s) (s_picture s) in
  p_y p = s_top s + gl_y f (p_off p) /\
  draws f (p_off p) (picture (s_set s) (s_picture s)) (first_column u).

Lemma layout_typeset st items : reads st items -> forall n clip c, (length (spelled items) <= n)%nat ->
  let '(ps, c1) := layout n blitstr_fonts clip st c (spelled items) in
  let '(spots, c2) := typeset clip c items in
  c1 = c2 /\ Forall2 same_place ps spots.
Proof.
  induction 1 as [|rest R IH|gs i cl rest P Fd R IH]; intros n clip c Hn.
  - destruct n; cbn [layout spelled typeset]; (split; [reflexivity|constructor]).
  - cbn [spelled length] in Hn. destruct n as [|n]; [lia|].
    cbn [spelled typeset layout]. change (10 =? 10) with true. cbv iota.
    apply IH. lia.
  - destruct (part_drawn gs i cl P) as (off & G & D & Ew & Ey).
    pose proof (found_choice st gs i cl (spelled rest) off P Fd G) as Ch.
    destruct (pictured_plain gs i cl P) as [Hc H10].
    cbn [spelled]. cbn [spelled] in Hn. rewrite app_length in Hn.
    destruct cl as [|ch cl]; [congruence|]. cbn [app] in *. cbn [length] in Hn.
    destruct n as [|n]; [lia|]. cbn [layout].
    assert (E10 : (ch =? 10) = false) by (apply N.eqb_neq; intros ->; apply H10; reflexivity).
    rewrite E10, Ch. cbv zeta beta iota. cbn [typeset]. cbv zeta.
    rewrite Ew.
    assert (Es : seek blitstr_fonts clip c (width (part_used gs i)) = make_room clip c (width (part_used gs i))) by reflexivity.
    rewrite Es. unfold placed_at at 1. cbn [p_y]. rewrite Ey.
    set (c1 := make_room clip c (width (part_used gs i))).
    destruct (py (cmax clip) <? cy c1 + first_row (part_used gs i)).
    + split; [reflexivity|constructor].
    + unfold after. rewrite Ew, heights.
      specialize (IH n clip (Cursor (Pt (cx c1 + width (part_used gs i) + 3) (cy c1)) (N.max (line_height c1) (N.of_nat (size gs)))) ltac:(lia)).
      destruct (layout n blitstr_fonts clip st _ (spelled rest)) as [ps c'].
      destruct (typeset clip _ rest) as [spots c''].
      destruct IH as [-> IH]. split; [reflexivity|]. constructor; [|exact IH].
      unfold same_place, placed_at. cbn [p_set p_x p_y p_off s_set s_left s_top s_picture]. cbv zeta.
      split; [reflexivity|]. split; [reflexivity|]. split; [reflexivity|exact D].
Qed.

(** *** Ink *)
Lemma place_ink clip p s x y : same_place p s -> ink blitstr_fonts clip p x y = spot_ink clip s x y.
Proof.
  destruct p as [gs off px0 py0], s as [gs' i sl t]. unfold same_place. cbn [p_set p_x p_y p_off s_set s_left s_top s_picture].
  intros (-> & -> & -> & Dp & Dc). unfold ink, spot_ink, in_rect. cbn [p_set p_x p_y p_off s_set s_left s_top s_picture]. cbv zeta.
  set (k := first_column (part_used gs' i)) in *. set (f := blitstr_fonts gs') in *. set (p := picture gs' i) in *.
  set (W := gl_w f off) in *. set (H := gl_h f off) in *. set (Yo := gl_y f off) in *.
  destruct (N.leb_spec sl x) as [X1|X1]; cbn [andb]; [|reflexivity].
  destruct (is_set p (N.to_nat (y - t)) (k + N.to_nat (x - sl))) eqn:Es.
  - rewrite andb_true_r. destruct (N.leb_spec t y) as [Y1|Y1].
    + destruct (Dc _ _ Es) as [D1 D2].
      destruct (N.ltb_spec x (sl + W)); [|lia].
      destruct (N.leb_spec (t + Yo) y); [|lia].
      destruct (N.ltb_spec y (t + Yo + H)); [|lia]. cbn [andb].
      assert (G : glyph_pixel f off (x - sl) (y - (t + Yo)) = true).
      { rewrite <- (Nnat.N2Nat.id (x - sl)), <- (Nnat.N2Nat.id (y - (t + Yo))).
        rewrite Dp by lia.
        replace (N.to_nat Yo + N.to_nat (y - (t + Yo)))%nat with (N.to_nat (y - t)) by lia.
        exact Es. }
      rewrite G, andb_true_r. reflexivity.
    + cbn [andb]. destruct (N.leb_spec (t + Yo) y); [lia|]. rewrite !andb_false_r. reflexivity.
  - rewrite andb_false_r.
    destruct (N.ltb_spec x (sl + W)) as [X2|X2]; cbn [andb]; [|rewrite ?andb_false_r; reflexivity].
    destruct (N.leb_spec (t + Yo) y) as [Y1|Y1]; cbn [andb]; [|rewrite ?andb_false_r; reflexivity].
    destruct (N.ltb_spec y (t + Yo + H)) as [Y2|Y2]; cbn [andb]; [|rewrite ?andb_false_r; reflexivity].
    assert (G : glyph_pixel f off (x - sl) (y - (t + Yo)) = false).
    { rewrite <- (Nnat.N2Nat.id (x - sl)), <- (Nnat.N2Nat.id (y - (t + Yo))).
      rewrite Dp by lia.
      replace (N.to_nat Yo + N.to_nat (y - (t + Yo)))%nat with (N.to_nat (y - t)) by lia.
      exact Es. }
    rewrite G, !andb_false_r. reflexivity.
Qed.

Lemma places_ink clip ps spots x y : Forall2 same_place ps spots -> inked blitstr_fonts clip ps x y = spots_ink clip spots x y.
Proof.
  induction 1 as [|p s ps spots H _ IH]; [reflexivity|]. cbn [inked spots_ink fold_right].
  rewrite (place_ink clip p s x y H), IH. reflexivity.
Qed.

Lemma text_shows m fb clip c st items :
  cfg_ok m -> is_frbuf fb -> paintable clip -> 36 <= clip_width clip ->
  cursor_fits m blitstr_fonts c (spelled items) -> reads st items ->
  let '(spots, c') := typeset clip c items in
  exists fb', paint_str m blitstr_fonts fb clip c st (spelled items) = Ret (fb', c') /\ is_frbuf fb' /\
    forall x y, x < STORED_WIDTH -> y < LINES -> pixel fb' x y = xorb (pixel fb x y) (spots_ink clip spots x y).
Proof.
  intros Hm Hfb Hp Hw Hc R.
  pose proof (C14_paint_refines_layout m blitstr_fonts fb clip c st (spelled items) Hm fonts_ok Hfb Hp Hw Hc) as L.
  pose proof (layout_typeset st items R (N.to_nat (str_len (spelled items))) clip c) as T.
  assert (Hn : (length (spelled items) <= N.to_nat (str_len (spelled items)))%nat)
    by (pose proof (str_len_ge (spelled items)); lia).
  specialize (T Hn).
  destruct (layout _ blitstr_fonts clip st c (spelled items)) as [ps c1]. destruct (typeset clip c items) as [spots c2].
  destruct T as [-> T]. destruct L as (fb' & E & Hfb' & Px). exists fb'. split; [exact E|]. split; [exact Hfb'|].
  intros x y Hx Hy. rewrite (Px x y Hx Hy), (places_ink clip ps spots x y T). reflexivity.
Qed.

(** ** Plain texts *)
Lemma latin_singles : forallb (fun s => match s with [_] => true | _ => false end) latin_index = true.
Proof. vm_cast_no_check (eq_refl true). Qed.

Lemma latin_pictured st i cl : pictured (latin_set st) i cl ->
  (exists c, cl = [c] /\ In c latin_chars) \/
  (exists x a d, cl = [a; d] /\ In ([x], [a; d]) latin_aliases /\ In a latin_chars /\ a < 128 /\ In d marks).
Proof.
  intros (canon & E & H). rewrite latin_index_st in E. rewrite latin_aliases_st in H. apply nth_error_In in E.
  destruct H as [->|H].
  - left. pose proof latin_singles as S. rewrite forallb_forall in S. specialize (S canon E).
    destruct canon as [|c [|]]; try discriminate. exists c. split; [reflexivity|]. apply latin_chars_in. exact E.
  - right. destruct (alias_cases canon cl H) as (x & a & d & -> & -> & _ & Ha & La & Hd & _).
    exists x, a, d. auto.
Qed.
Lemma hanzi_pictured i cl : pictured Hanzi i cl -> exists c, cl = [c] /\ In c hanzi_chars.
Proof.
  intros (canon & E & H). cbn [font_index] in E. apply nth_error_In in E. destruct H as [->|[]].
  unfold hanzi_index in E. apply in_map_iff in E. destruct E as (c & <- & I). exists c. split; [reflexivity|exact I].
Qed.

Lemma hanzi_not_marks c : In c hanzi_chars -> ~ In c marks /\ c <> 10.
Proof.
  intros H. assert (A : forallb (fun c => negb (char_in c marks) && negb (c =? 10)) hanzi_chars = true) by (vm_cast_no_check (eq_refl true)).
  rewrite forallb_forall in A. specialize (A c H). apply andb_prop in A. destruct A as [A1 A2]. split.
  - intros J. apply (proj2 (char_in_ok _ _)) in J. rewrite J in A1. discriminate.
  - apply negb_true_iff, N.eqb_neq in A2. exact A2.
Qed.

(** The ways a plain cluster can look *)
Lemma plain_cases st gs i cl : plain_item st (Cluster gs i cl) ->
  (exists c, cl = [c] /\ In c latin_chars /\ (gs = latin_set st \/ gs = Emoji)) \/
  (exists x a d, cl = [a; d] /\ In ([x], [a; d]) latin_aliases /\ In a latin_chars /\ a < 128 /\ In d marks /\ gs = latin_set st) \/
  (exists c, cl = [c] /\ In c hanzi_chars /\ gs = Hanzi).
Proof.
  inversion 1 as [|? ? P N1 N2|? ? P|? ? P A]; subst.
  - destruct (latin_pictured st i cl P) as [(c & -> & I)|(x & a & d & -> & I)].
    + left. exists c. auto.
    + right; left. exists x, a, d. intuition.
  - destruct (hanzi_pictured i cl P) as (c & -> & I). right; right. exists c. auto.
  - left. assert (L : In 0xA9 latin_chars /\ In 0xAE latin_chars) by (split; apply char_in_ok; vm_compute; reflexivity).
    destruct A as [-> | ->]; eexists; (split; [reflexivity|]); split; try apply L; right; reflexivity.
Qed.

Lemma newline_not_mark : ~ In 10 marks.
Proof. intros H. apply marks_high in H. lia. Qed.

Lemma plain_spelled st items : Forall (plain_item st) items ->
  Forall (fun d => In d alphabet) (spelled items) /\
  match spelled items with d :: _ => ~ In d marks | [] => True end.
Proof.
  induction 1 as [|it rest Hit _ [IH1 IH2]]; [split; [constructor|exact I]|].
  destruct it as [|gs i cl]; cbn [spelled].
  - split; [constructor; [apply in_alphabet; left; reflexivity|exact IH1]|exact newline_not_mark].
  - destruct (plain_cases st gs i cl Hit) as [(c & -> & I & _)|[(x & a & d & -> & _ & I & _ & J & _)|(c & -> & I & _)]]; cbn [app].
    + split; [constructor; [apply in_alphabet; auto|exact IH1]|]. intros M. apply marks_high in M. tauto.
    + split; [constructor; [apply in_alphabet; auto|constructor; [apply in_alphabet; auto|exact IH1]]|].
      intros M. apply marks_high in M. tauto.
    + split; [constructor; [apply in_alphabet; auto|exact IH1]|]. apply hanzi_not_marks. exact I.
Qed.

Lemma known_len gs cl s off : glyph_for (blitstr_fonts gs) (cl ++ s) = Some (off, length cl) -> known gs (cl ++ s) (str_len cl).
Proof.
  intros E. apply known_glyph. exists off, (length cl). split; [exact E|].
  rewrite firstn_app, firstn_all, Nat.sub_diag. cbn [firstn]. rewrite app_nil_r. reflexivity.
Qed.

Lemma no_lookalike_app a s : no_lookalike (a ++ s) -> no_lookalike s.
Proof. intros H b three r k -> I. apply (H (a ++ b) three r k); [rewrite <- app_assoc; reflexivity|exact I]. Qed.
Lemma no_lookalike_starts s : no_lookalike s -> starts_none s.
Proof. intros H three k r I E. exact (H [] three r k E I). Qed.

Lemma plain_reads st items : Forall (plain_item st) items -> no_lookalike (spelled items) -> reads st items.
Proof.
  induction 1 as [|it rest Hit Hrest IH]; intros Hn; [constructor|].
  destruct (plain_spelled st rest Hrest) as [Al Mk].
  destruct it as [|gs i cl].
  { constructor. apply IH. exact (no_lookalike_app [10] _ Hn). }
  assert (R : reads st rest) by (apply IH; exact (no_lookalike_app cl _ Hn)).
  assert (P : pictured gs i cl) by (inversion Hit; assumption).
  cbn [spelled] in Hn. pose proof (no_lookalike_starts _ Hn) as Sn.
  constructor; [exact P| |exact R].
  set (t := spelled rest) in *.
  destruct (plain_cases st gs i cl Hit) as [(c & -> & I & Hg)|[(x & a & d & -> & J & I & La & Md & ->)|(c & -> & I & ->)]].
  - (* a letter *)
    assert (Gc : In c glyph_chars) by (apply in_or_app; left; exact I).
    cbn [app] in Sn. destruct (emoji_mixed c t Gc Al Sn) as [E1 E2].
    inversion Hit as [|? ? P' N1 N2 Eg|? ? P' Eg|? ? P' A]; subst.
    + assert (U : glyph_for (blitstr_fonts Emoji) [c] = None).
      { assert (Jc : In [c] (latin_index ++ map snd latin_aliases)) by (apply in_or_app; left; apply latin_chars_in; exact I).
        pose proof latin_checked as C. rewrite forallb_forall in C. specialize (C [c] Jc).
        apply andb_prop in C. destruct C as [_ C]. apply orb_prop in C. destruct C as [C|C].
        - apply unknown_none. exact C.
        - apply inb_in in C. destruct C as [C|[C|[]]]; congruence. }
      split.
      * apply (known_len _ [c] t (latin_glyph st c)). apply (latin_read_next st c t I). apply alphabet_next; assumption.
      * assert (W : latin_set st = latin_set st /\ unknown_to Emoji (c :: t)).
        { split; [reflexivity|]. apply unknown_glyph. rewrite E1. exact U. }
        cbn [app]. destruct (latin_set st) eqn:El; try exact W; destruct st; discriminate.
    + destruct Hg as [Hg|Hg]; [destruct st; discriminate|discriminate].
    + split; [|exact Logic.I].
      destruct (part_drawn Emoji i [c] P) as (off & G & _). apply (known_len Emoji [c] t off).
      cbn [app length]. rewrite E1. exact G.
  - (* an accented letter in two characters *)
    assert (Ga : In a glyph_chars) by (apply in_or_app; left; exact I).
    assert (Al' : Forall (fun d => In d alphabet) (d :: t)).
    { constructor; [apply in_alphabet; auto|exact Al]. }
    cbn [app] in Sn. destruct (emoji_mixed a (d :: t) Ga Al' Sn) as [E1 _].
    destruct (emoji_latin a [] I ltac:(constructor)) as (_ & _ & E3).
    split.
    + apply (known_len _ [a; d] t (latin_glyph st x)). exact (alias_read st x a d t J).
    + assert (W : latin_set st = latin_set st /\ unknown_to Emoji (a :: d :: t)).
      { split; [reflexivity|]. apply unknown_glyph. rewrite E1. apply E3. exact La. }
      cbn [app]. destruct (latin_set st) eqn:El; try exact W; destruct st; discriminate.
  - (* a hanzi *)
    assert (Gc : In c glyph_chars) by (apply in_or_app; right; exact I).
    cbn [app] in Sn. destruct (emoji_mixed c t Gc Al Sn) as [E1 _].
    destruct (part_drawn Hanzi i [c] P) as (off & G & _).
    split.
    + apply (known_len Hanzi [c] t off). cbn [app length]. rewrite hanzi_read. exact G.
    + cbn [app]. split.
      * apply unknown_glyph. rewrite E1. pose proof hanzi_first as C. rewrite forallb_forall in C.
        specialize (C [c] (proj2 (hanzi_in c) I)). rewrite !andb_true_iff in C. apply unknown_none. apply C.
      * apply unknown_glyph. apply hanzi_not_latin. exact I.
Qed.

(** ** Lookalikes *)
Definition emoji_offset (s : str) : N :=
  match glyph_for (blitstr_fonts Emoji) s with Some (off, _) => off | None => 0 end.
Lemma lookalike_facts : forallb (fun p =>
  match fst p with
  | [a; d; e] => (32 <=? a) && (a <? 127) && negb (char_in d marks) && char_in d glyph_chars && char_in e glyph_chars
      && match glyph_for (blitstr_fonts Emoji) [a; d; e], glyph_for (blitstr_fonts Emoji) (keycap (snd p)) with
         | Some (o, 3%nat), Some (o', 3%nat) => o =? o'
         | _, _ => false
         end
      && inb (keycap (snd p)) (map snd (font_aliases Emoji))
  | _ => false
  end) lookalikes = true.
Proof. vm_cast_no_check (eq_refl true). Qed.
Lemma lookalike_shape three k : In (three, k) lookalikes -> exists a d e off, three = [a; d; e] /\ printable a /\
  ~ In d marks /\ In d glyph_chars /\ In e glyph_chars /\
  glyph_for (blitstr_fonts Emoji) three = Some (off, 3%nat) /\
  glyph_for (blitstr_fonts Emoji) (keycap k) = Some (off, 3%nat) /\ In (keycap k) (map snd (font_aliases Emoji)).
Proof.
  intros H. pose proof lookalike_facts as F. rewrite forallb_forall in F. specialize (F _ H). cbn [fst snd] in F.
  destruct three as [|a [|d [|e [|]]]]; try discriminate.
  rewrite !andb_true_iff in F. destruct F as [[[[[[F1 F2] F3] F4] F5] F6] F7].
  exists a, d, e. destruct (glyph_for (blitstr_fonts Emoji) [a; d; e]) as [[o [|[|[|[|]]]]]|]; try discriminate.
  destruct (glyph_for (blitstr_fonts Emoji) (keycap k)) as [[o' [|[|[|[|]]]]]|]; try discriminate.
  apply N.eqb_eq in F6. subst o'. exists o. split; [reflexivity|]. split; [unfold printable; lia|].
  split. { intros M. apply (proj2 (char_in_ok _ _)) in M. rewrite M in F3. discriminate. }
  apply char_in_ok in F4, F5. apply inb_in in F7. auto.
Qed.

Lemma ascii_block_limits : forallb (fun b => (128 <=? b_low b) || str_eqb (b_limits b) [3; 2]) (f_blocks (blitstr_fonts Emoji)) = true.
Proof. vm_cast_no_check (eq_refl true). Qed.

Lemma three_matched a d e off s : a < 128 -> glyph_for (blitstr_fonts Emoji) [a; d; e] = Some (off, 3%nat) ->
  glyph_for (blitstr_fonts Emoji) (a :: d :: e :: s) = Some (off, 3%nat).
Proof.
  intros La E. unfold glyph_for in *.
  destruct (find _ (f_blocks (blitstr_fonts Emoji))) as [b|] eqn:Eb; [|discriminate].
  apply find_some in Eb. destruct Eb as [Hin Hr]. pose proof ascii_block_limits as B. rewrite forallb_forall in B.
  specialize (B b Hin). apply andb_prop in Hr. destruct Hr as [Hr _]. apply N.leb_le in Hr.
  apply orb_prop in B. destruct B as [B|B]; [apply N.leb_le in B; lia|]. apply str_eqb_eq in B. rewrite B in *.
  cbn [match_limits] in *. rewrite !grapheme_cluster_spec in *. cbn [fst] in *.
  change (firstn (N.to_nat 3) (a :: d :: e :: s)) with [a; d; e].
  change (firstn (N.to_nat 3) [a; d; e]) with [a; d; e] in E.
  destruct (index_of (hash_all [a; d; e] _) _) as [k|].
  - injection E as <-. f_equal.
  - destruct (index_of _ _); [|discriminate]. injection E as _ E. discriminate.
Qed.

Lemma reads_no_lookalike st items : Forall (plain_item st) items -> reads st items -> no_lookalike (spelled items).
Proof.
  intros Hp Hr before three after k Es I. destruct (lookalike_shape three k I) as (a & d & e & off & -> & Pa & Md & _ & _ & G & _).
  assert (La : a < 128 /\ a <> 10 /\ ~ In a marks).
  { unfold printable in Pa. split; [lia|]. split; [lia|]. intros M. apply marks_high in M. lia. }
  destruct La as (La & L10 & Ma). revert before Es.
  induction Hr as [|rest R IH|gs i cl rest P Fd R IH]; intros before Es; inversion Hp as [|? ? Hit Hrest]; subst.
  - cbn [spelled] in Es. destruct before; discriminate.
  - cbn [spelled] in Es. destruct before as [|b before].
    + cbn [app] in Es. injection Es as Es _. congruence.
    + cbn [app] in Es. injection Es as _ Es. exact (IH Hrest before Es).
  - cbn [spelled] in Es, Fd.
    assert (One : forall c, cl = [c] -> False).
    { intros c ->. cbn [app] in *. destruct before as [|b before].
      - cbn [app] in Es. injection Es as -> Es. destruct Fd as [K W].
        rewrite Es in K, W. pose proof (three_matched a d e off after La G) as G3. destruct gs.
        + apply known_glyph in K. destruct K as (o & n & K & L). rewrite G3 in K. injection K as <- <-.
          cbn [firstn str_len] in L. pose proof (len_utf8_pos d). pose proof (len_utf8_pos e). lia.
        + destruct W as [_ W]. apply unknown_glyph in W. congruence.
        + destruct W as [_ W]. apply unknown_glyph in W. congruence.
        + destruct W as [_ W]. apply unknown_glyph in W. congruence.
        + destruct W as [W _]. apply unknown_glyph in W. congruence.
      - cbn [app] in Es. injection Es as _ Es. exact (IH Hrest before Es). }
    destruct (plain_cases st gs i cl Hit) as [(c & Ec & _)|[(x & a' & d' & -> & _ & _ & _ & M & _)|(c & Ec & _)]];
      [exact (One c Ec)| |exact (One c Ec)].
    cbn [app] in Es. destruct before as [|b [|b' before]]; cbn [app] in Es.
    + injection Es as _ -> _. contradiction.
    + injection Es as _ -> _. contradiction.
    + injection Es as _ _ Es. exact (IH Hrest before Es).
Qed.

(** Every text of characters with glyphs is a row of plain items *)
Lemma char_items st s : Forall (fun c => c = 10 \/ In [c] (font_index (latin_set st)) \/ In [c] (font_index Hanzi)) s ->
  exists items, Forall (plain_item st) items /\ spelled items = s.
Proof.
  induction 1 as [|c s H _ (items & P & <-)]; [exists []; split; [constructor|reflexivity]|].
  destruct H as [->|[H|H]].
  - exists (Newline :: items). split; [constructor; [constructor|exact P]|reflexivity].
  - destruct (list_eq_dec N.eq_dec [c] [0xA9]) as [E|N1]; [|destruct (list_eq_dec N.eq_dec [c] [0xAE]) as [E|N2]].
    + injection E as ->. exists (Cluster Emoji (match find (fun p => str_eqb (snd p) [0xA9]) (combine (seq 0 (length (font_index Emoji))) (font_index Emoji)) with Some (i, _) => i | None => O end) [0xA9] :: items).
      split; [constructor; [|exact P]|reflexivity]. apply pl_emoji; [|left; reflexivity].
      exists [0xA9]. split; [|left; reflexivity]. vm_compute. reflexivity.
    + injection E as ->. exists (Cluster Emoji (match find (fun p => str_eqb (snd p) [0xAE]) (combine (seq 0 (length (font_index Emoji))) (font_index Emoji)) with Some (i, _) => i | None => O end) [0xAE] :: items).
      split; [constructor; [|exact P]|reflexivity]. apply pl_emoji; [|right; reflexivity].
      exists [0xAE]. split; [|left; reflexivity]. vm_compute. reflexivity.
    + apply In_nth_error in H. destruct H as (i & E). exists (Cluster (latin_set st) i [c] :: items).
      split; [constructor; [|exact P]|reflexivity]. apply pl_latin; try assumption.
      exists [c]. split; [exact E|left; reflexivity].
  - apply In_nth_error in H. destruct H as (i & E). exists (Cluster Hanzi i [c] :: items).
    split; [constructor; [|exact P]|reflexivity]. apply pl_hanzi. exists [c]. split; [exact E|left; reflexivity].
Qed.

Lemma lookalike_layout st n three k clip c : In (three, k) lookalikes -> (3 <= n)%nat ->
  layout n blitstr_fonts clip st c three = layout n blitstr_fonts clip st c (keycap k).
Proof.
  intros I Hn. destruct (lookalike_shape three k I) as (a & d & e & off & -> & Pa & _ & _ & _ & G1 & G2 & J).
  assert (C1 : choose blitstr_fonts st [a; d; e] = (Emoji, off, [], true)) by (unfold choose; rewrite G1; reflexivity).
  assert (C2 : choose blitstr_fonts st (keycap k) = (Emoji, off, [], true)) by (unfold choose; rewrite G2; reflexivity).
  assert (Na : (a =? 10) = false) by (unfold printable in Pa; lia).
  assert (Nk : (k =? 10) = false).
  { apply N.eqb_neq. intros ->. assert (A : forallb (fun p => negb (snd p =? 10)) lookalikes = true) by (vm_compute; reflexivity).
    rewrite forallb_forall in A. specialize (A _ I). discriminate. }
  destruct n as [|n]; [lia|]. unfold keycap in *. cbn [layout]. rewrite Na, Nk, C1, C2. reflexivity.
Qed.

Lemma lookalike_paint m fb clip c st three k : In (three, k) lookalikes ->
  cfg_ok m -> is_frbuf fb -> paintable clip -> 36 <= clip_width clip ->
  cursor_fits m blitstr_fonts c three -> cursor_fits m blitstr_fonts c (keycap k) ->
  paint_str m blitstr_fonts fb clip c st three = paint_str m blitstr_fonts fb clip c st (keycap k).
Proof.
  intros I Hm Hfb Hclip Hw Hc Hc'.
  pose proof (C14_paint_refines_layout m blitstr_fonts fb clip c st three Hm fonts_ok Hfb Hclip Hw Hc) as R.
  pose proof (C14_paint_refines_layout m blitstr_fonts fb clip c st (keycap k) Hm fonts_ok Hfb Hclip Hw Hc') as R'.
  destruct (lookalike_shape three k I) as (a & d & e & off & Et & _).
  assert (E : layout (N.to_nat (str_len three)) blitstr_fonts clip st c three =
              layout (N.to_nat (str_len (keycap k))) blitstr_fonts clip st c (keycap k)).
  { pose proof (str_len_ge three) as L. pose proof (str_len_ge (keycap k)) as L'.
    assert (L3 : length three = 3%nat) by (rewrite Et; reflexivity).
    assert (L3' : length (keycap k) = 3%nat) by reflexivity.
    rewrite (lookalike_layout st _ three k clip c I) by lia.
    destruct (lookalike_shape three k I) as (a' & d' & e' & off' & _ & _ & _ & _ & _ & _ & G2 & _).
    assert (C2 : choose blitstr_fonts st (keycap k) = (Emoji, off', [], true)) by (unfold choose; rewrite G2; reflexivity).
    destruct (N.to_nat (str_len three)) as [|[|n]] eqn:E1; [lia|lia|].
    destruct (N.to_nat (str_len (keycap k))) as [|[|n']] eqn:E2; [lia|lia|].
    unfold keycap in *. cbn [layout]. destruct (k =? 10) eqn:Ek.
    - exfalso. apply N.eqb_eq in Ek. subst k.
      assert (A : forallb (fun p => negb (snd p =? 10)) lookalikes = true) by (vm_compute; reflexivity).
      rewrite forallb_forall in A. specialize (A _ I). discriminate.
    - rewrite C2. reflexivity. }
  rewrite E in R.
  destruct (layout (N.to_nat (str_len (keycap k))) blitstr_fonts clip st c (keycap k)) as [ps c2].
  destruct R as (fbA & EA & HA & PA). destruct R' as (fbB & EB & HB & PB).
  rewrite EA, EB. f_equal. f_equal. apply pixel_ext; [assumption|assumption|].
  intros x y Hx Hy. rewrite PA, PB by assumption. reflexivity.
Qed.

(** Only texts that have both letters and hanzi contain lookalikes *)
Lemma lookalike_hanzi : forallb (fun p => existsb (fun c => char_in c hanzi_chars) (fst p)) lookalikes = true.
Proof. vm_cast_no_check (eq_refl true). Qed.

Lemma latin_not_hanzi c : In c latin_chars \/ In c marks \/ c = 10 -> ~ In c hanzi_chars.
Proof.
  intros H J. assert (A : forallb (fun c => negb (char_in c hanzi_chars)) (10 :: latin_chars ++ nodup N.eq_dec marks) = true) by (vm_cast_no_check (eq_refl true)).
  rewrite forallb_forall in A. specialize (A c). apply (proj2 (char_in_ok _ _)) in J. rewrite J in A.
  enough (false = true) by discriminate. apply A. cbn [In]. rewrite in_app_iff, nodup_In. intuition.
Qed.

Lemma letters_no_lookalike st items : Forall (plain_item st) items ->
  Forall (fun it => match it with Cluster Hanzi _ _ => False | _ => True end) items -> no_lookalike (spelled items).
Proof.
  intros Hp Hh.
  assert (N : Forall (fun c => ~ In c hanzi_chars) (spelled items)).
  { induction Hp as [|it rest Hit Hrest IH]; [constructor|]. inversion Hh as [|? ? H1 H2]; subst. specialize (IH H2).
    destruct it as [|gs i cl]; cbn [spelled].
    - constructor; [|exact IH]. apply latin_not_hanzi. auto.
    - destruct (plain_cases st gs i cl Hit) as [(c & -> & I & _)|[(x & a & d & -> & _ & I & _ & J & _)|(c & -> & I & ->)]]; [| |destruct H1].
      + constructor; [|exact IH]. apply latin_not_hanzi. auto.
      + constructor; [|constructor; [|exact IH]]; apply latin_not_hanzi; auto. }
  intros b three r k E I. rewrite E in N. apply Forall_app in N. destruct N as [_ N]. apply Forall_app in N. destruct N as [N _].
  pose proof lookalike_hanzi as A. rewrite forallb_forall in A. specialize (A _ I). cbn [fst] in A.
  apply existsb_exists in A. destruct A as (c & J & A). apply char_in_ok in A.
  rewrite Forall_forall in N. exact (N c J A).
Qed.

Lemma hanzi_no_lookalike st items : Forall (plain_item st) items ->
  Forall (fun it => match it with Newline | Cluster Hanzi _ _ => True | _ => False end) items -> no_lookalike (spelled items).
Proof.
  intros Hp Hh.
  assert (N : Forall (fun c => c = 10 \/ In c hanzi_chars) (spelled items)).
  { induction Hp as [|it rest Hit Hrest IH]; [constructor|]. inversion Hh as [|? ? H1 H2]; subst. specialize (IH H2).
    destruct it as [|gs i cl]; cbn [spelled].
    - constructor; [left; reflexivity|exact IH].
    - destruct gs; try destruct H1. assert (P : pictured Hanzi i cl) by (inversion Hit; subst; try assumption; destruct st; discriminate).
      destruct (hanzi_pictured i cl P) as (c & -> & J). constructor; [right; exact J|exact IH]. }
  intros b three r k E I. destruct (lookalike_shape three k I) as (a & d & e & off & -> & Pa & _).
  rewrite E in N. apply Forall_app in N. destruct N as [_ N]. inversion N as [|? ? Ha _]; subst. unfold printable in Pa.
  destruct Ha as [->|Ha]; [lia|].
  assert (A : forallb (fun c => 128 <=? c) hanzi_chars = true) by (vm_cast_no_check (eq_refl true)).
  rewrite forallb_forall in A. specialize (A a Ha). apply N.leb_le in A. lia.
Qed.

Lemma glyph_char_listed st c : In c glyph_chars -> In [c] (font_index (latin_set st)) \/ In [c] (font_index Hanzi).
Proof.
  unfold glyph_chars. rewrite in_app_iff. intros [H|H].
  - left. rewrite latin_index_st. apply latin_chars_in. exact H.
  - right. apply hanzi_in. exact H.
Qed.
Lemma lookalike_has_glyphs three k : In (three, k) lookalikes ->
  forall st, Forall (fun c => In [c] (font_index (latin_set st)) \/ In [c] (font_index Hanzi)) three.
Proof.
  intros I st. destruct (lookalike_shape three k I) as (a & d & e & off & -> & Pa & _ & D & E & _).
  constructor; [|constructor; [|constructor; [|constructor]]]; apply glyph_char_listed; try assumption.
  apply in_or_app. left. apply printable_chars. exact Pa.
Qed.
