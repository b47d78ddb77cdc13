(** * Lines of text *)
From Coq Require Import ZArith.
From Verif Require Import PrimFacts Str Geom FontDefs Blit Spec SpecCodegen SpecIndex SpecSheet SpecPictures Fonts.
From Verif Require Import SpecPaint SpecSetting SettingProofs SpecReadme.

Ltac csimpl := cbn [cx cy cpt px py line_height fst snd s_set s_picture s_left s_top] in *.

Lemma size_height gs : N.of_nat (size gs) = glyph_height gs.
Proof. destruct gs; reflexivity. Qed.

Lemma height_bounds gs : 24 <= glyph_height gs <= 32.
Proof. destruct gs; unfold glyph_height; lia. Qed.

(** ** Pictures are as high as their font *)
Lemma cut_out_rows rows n x y r c : is_set (cut_out rows n x y) r c = true -> (r < n)%nat.
Proof.
  unfold is_set, cut_out. intros H. destruct (Nat.lt_ge_cases r n) as [L|L]; [exact L|exfalso].
  rewrite (nth_overflow (map _ (seq 0 n))) in H by (rewrite map_length, seq_length; exact L).
  rewrite nth_overflow in H by (simpl; lia). discriminate.
Qed.

Lemma picture_rows gs i r c : is_set (picture gs i) r c = true -> (r < size gs)%nat.
Proof.
  unfold picture. destruct (picture_place gs i) as [row col].
  destruct gs; cbn [size]; apply cut_out_rows.
Qed.

Lemma spot_rows clip s x y : spot_ink clip s x y = true ->
  s_top s <= y < s_top s + glyph_height (s_set s).
Proof.
  unfold spot_ink. intros H. apply andb_prop in H as [H P]. apply picture_rows in P.
  rewrite <- size_height. lia.
Qed.

Lemma spots_rows clip spots x y lo hi :
  Forall (fun s => lo <= s_top s /\ s_top s + glyph_height (s_set s) <= hi) spots ->
  spots_ink clip spots x y = true -> lo <= y < hi.
Proof.
  unfold spots_ink. induction 1 as [|s t [L H] _ IH]; [discriminate|]. cbn [fold_right]. intros X.
  destruct (spot_ink clip s x y) eqn:E.
  - apply spot_rows in E. lia.
  - rewrite xorb_false_l in X. apply IH. exact X.
Qed.

(** ** The part used is no wider than the picture *)
Lemma last_le n l d : Forall (fun x => (x < n)%nat) l -> (d < n)%nat -> (last l d < n)%nat.
Proof.
  intros H. revert d. induction H as [|x l Hx Hl IH]; intros d Hd; [exact Hd|].
  cbn [last]. destruct l as [|y l]; [exact Hx|]. apply IH. exact Hd.
Qed.

Lemma inked_columns_lt n p : Forall (fun x => (x < n)%nat) (inked_columns n p).
Proof.
  apply Forall_forall. intros x H. apply filter_In in H. destruct H as [H _]. apply in_seq in H. lia.
Qed.

Lemma part_bounds gs i : width (part_used gs i) <= 32 /\ first_row (part_used gs i) <= 31.
Proof.
  unfold part_used.
  assert (S : (24 <= size gs <= 32)%nat) by (destruct gs; cbn; lia).
  assert (B : forall n p, (24 <= n <= 32)%nat ->
    let q := match inked_columns n p, inked_rows n p with
             | l :: more, top :: _ => Part l (N.of_nat (Datatypes.S (last more l) - l)) (N.of_nat top)
             | _, _ => Part 0 4 (N.of_nat (n / 2 - 1))
             end in width q <= 32 /\ first_row q <= 31).
  { intros n p Hn.
    assert (D : (n / 2 <= 16)%nat) by (apply (Nat.div_le_upper_bound n 2 16); lia).
    pose proof (inked_columns_lt n p) as C.
    destruct (inked_columns n p) as [|l more]; [cbn [width first_row]; lia|].
    destruct (inked_rows n p) as [|top rows] eqn:R; [cbn [width first_row]; lia|].
    cbn [width first_row].
    assert (T : In top (inked_rows n p)) by (rewrite R; left; reflexivity).
    apply filter_In in T. destruct T as [T _]. apply in_seq in T.
    inversion C as [|? ? C1 C2]; subst. pose proof (last_le n more l C2 C1). lia. }
  destruct gs; try exact (B _ _ S). cbn. lia.
Qed.

(** ** Where the pictures of a text are *)
Section Lines.
  Context (clip : cliprect) (Hclip : paintable clip) (Hw : 36 <= clip_width clip).

  Lemma make_room_cases c w : w <= 32 ->
    px (cmin clip) <= cx (make_room clip c w) /\ cx (make_room clip c w) + w + 3 < px (cmax clip) /\
    ((cy (make_room clip c w) = cy c /\ line_height (make_room clip c w) = line_height c /\ cx c <= cx (make_room clip c w)) \/
     (cy (make_room clip c w) = cy c + N.max 24 (line_height c) + 1 /\ line_height (make_room clip c w) = 0)).
  Proof.
    intros H. unfold make_room, new_line, clip_width in *. destruct Hclip as [H1 H2]. csimpl.
    destruct (N.leb_spec (px (cmax clip)) (N.max (cx c) (px (cmin clip)) + w + 3)); csimpl; lia.
  Qed.

  (** What the cursor knows of the line it is on: nothing has been put to its right *)
  Definition from_here (c : cursor) (q : spot) : Prop :=
    cy c <= s_top q /\ (s_top q = cy c -> cx c + 1 <= s_left q) /\
    (s_top q = cy c \/ cy c + N.max 24 (line_height c) < s_top q) /\
    px (cmin clip) + 1 <= s_left q /\
    s_left q + width (part_used (s_set q) (s_picture q)) + 2 < px (cmax clip).

  Lemma typeset_from items c : Forall (from_here c) (fst (typeset clip c items)).
  Proof.
    revert c; induction items as [|it rest IH]; intros c; [constructor|].
    destruct it as [|gs i cl]; cbn [typeset].
    - eapply Forall_impl; [|apply IH]. intros q (A & B & C & D). unfold from_here, new_line in *; csimpl. lia.
    - destruct (part_bounds gs i) as [W R]. cbv zeta.
      pose proof (make_room_cases c (width (part_used gs i)) W) as (M1 & M2 & M3).
      set (c1 := make_room clip c (width (part_used gs i))) in *.
      destruct (_ <? _); [constructor|].
      specialize (IH (Cursor (Pt (cx c1 + width (part_used gs i) + 3) (cy c1))
                        (N.max (line_height c1) (N.of_nat (size gs))))).
      destruct (typeset clip _ rest) as [spots c']. cbn [fst] in *. constructor.
      + unfold from_here; csimpl. lia.
      + eapply Forall_impl; [|exact IH]. intros q (A & B & C & D). unfold from_here; csimpl. lia.
  Qed.

  Lemma typeset_lines items c :
    ForallOrdPairs (fun p q => in_lines p q /\ side_by_side p q) (fst (typeset clip c items)).
  Proof.
    revert c; induction items as [|it rest IH]; intros c; [constructor|].
    destruct it as [|gs i cl]; cbn [typeset]; [apply IH|].
    cbv zeta. set (c1 := make_room clip c (width (part_used gs i))) in *.
    destruct (_ <? _); [constructor|].
    set (c2 := Cursor (Pt (cx c1 + width (part_used gs i) + 3) (cy c1)) (N.max (line_height c1) (N.of_nat (size gs)))).
    specialize (IH c2). pose proof (typeset_from rest c2) as F.
    destruct (typeset clip c2 rest) as [spots c']. cbn [fst] in *. constructor; [|exact IH].
    eapply Forall_impl; [|exact F]. intros q (A & B & C & D). unfold c2 in *; csimpl.
    rewrite size_height in *. pose proof (height_bounds gs).
    unfold in_lines, side_by_side; csimpl. lia.
  Qed.

  (** ** One line *)
  Lemma typeset_line items : one_line items -> forall c, px (cmin clip) <= cx c ->
    cx c + line_width items < px (cmax clip) -> cy c + 31 <= py (cmax clip) ->
    let '(spots, c') := typeset clip c items in
    c' = Cursor (Pt (cx c + line_width items) (cy c)) (N.max (line_height c) (line_height_of items)) /\
    Forall (fun s => s_top s = cy c /\ glyph_height (s_set s) <= line_height_of items) spots /\
    map (fun s => (s_set s, s_picture s)) spots
    = flat_map (fun it => match it with Cluster gs i _ => [(gs, i)] | Newline => [] end) items.
  Proof.
    induction 1 as [|it rest Hit _ IH]; intros c Hx Hfit Hy.
    { cbn [typeset line_width line_height_of map flat_map]. split; [|split; [constructor|reflexivity]].
      destruct c as [[x y] lh]; csimpl. rewrite N.add_0_r, N.max_0_r. reflexivity. }
    destruct it as [|gs i cl]; [congruence|]. cbn [typeset line_width line_height_of] in *. cbv zeta.
    destruct (part_bounds gs i) as [W R]. set (w := width (part_used gs i)) in *.
    assert (E : make_room clip c w = c).
    { unfold make_room. destruct c as [[x y] lh]; csimpl. replace (N.max x (px (cmin clip))) with x by lia.
      replace (px (cmax clip) <=? x + w + 3) with false by lia. reflexivity. }
    rewrite E. replace (py (cmax clip) <? cy c + first_row (part_used gs i)) with false by lia.
    specialize (IH (Cursor (Pt (cx c + w + 3) (cy c)) (N.max (line_height c) (N.of_nat (size gs))))).
    csimpl. specialize (IH ltac:(lia) ltac:(lia) ltac:(lia)).
    destruct (typeset clip _ rest) as [spots c']. destruct IH as (-> & F & M). split; [|split].
    - rewrite size_height. f_equal; [f_equal; lia|lia].
    - constructor; csimpl; [lia|]. eapply Forall_impl; [|exact F]. intros s [A B]. split; [exact A|lia].
    - cbn [map flat_map app s_set s_picture]. f_equal. exact M.
  Qed.

  Lemma typeset_line_break items more : one_line items -> forall c, px (cmin clip) <= cx c ->
    cx c + line_width items < px (cmax clip) -> cy c + 31 <= py (cmax clip) ->
    typeset clip c (items ++ more) =
    let '(spots, c') := typeset clip c items in
    let '(spots2, c2) := typeset clip c' more in (spots ++ spots2, c2).
  Proof.
    induction 1 as [|it rest Hit _ IH]; intros c Hx Hfit Hy.
    { cbn [typeset app]. destruct (typeset clip c more). reflexivity. }
    destruct it as [|gs i cl]; [congruence|]. cbn [typeset line_width app] in *. cbv zeta.
    destruct (part_bounds gs i) as [W R]. set (w := width (part_used gs i)) in *.
    assert (E : make_room clip c w = c).
    { unfold make_room. destruct c as [[x y] lh]; csimpl. replace (N.max x (px (cmin clip))) with x by lia.
      replace (px (cmax clip) <=? x + w + 3) with false by lia. reflexivity. }
    rewrite E. replace (py (cmax clip) <? cy c + first_row (part_used gs i)) with false by lia.
    specialize (IH (Cursor (Pt (cx c + w + 3) (cy c)) (N.max (line_height c) (N.of_nat (size gs))))).
    csimpl. rewrite IH by lia. destruct (typeset clip _ rest) as [spots c'].
    destruct (typeset clip c' more) as [spots2 c2]. reflexivity.
  Qed.
End Lines.

(** ** Painting a line *)
Lemma spelled_app a b : spelled (a ++ b) = spelled a ++ spelled b.
Proof.
  induction a as [|[|gs i cl] a IH]; [reflexivity| |]; cbn [app spelled]; rewrite IH; [reflexivity|].
  rewrite app_assoc. reflexivity.
Qed.

Lemma paint_line m fb clip c st items :
  cfg_ok m -> is_frbuf fb -> paintable clip -> 36 <= clip_width clip ->
  cursor_fits m blitstr_fonts c (spelled items ++ [10]) -> reads st (items ++ [Newline]) ->
  one_line items -> px (cmin clip) <= cx c ->
  cx c + line_width items < px (cmax clip) -> cy c + 31 <= py (cmax clip) ->
  exists fb',
    paint_str m blitstr_fonts fb clip c st (spelled items ++ [10])
    = Ret (fb', Cursor (Pt (px (cmin clip)) (cy c + N.max 24 (N.max (line_height c) (line_height_of items)) + 1)) 0) /\
    forall x y, x < STORED_WIDTH -> y < LINES -> pixel fb' x y <> pixel fb x y ->
      cy c <= y < cy c + line_height_of items.
Proof.
  intros Hm Hfb Hp Hw Hc R H1 Hx Hfit Hy.
  assert (Sp : spelled (items ++ [Newline]) = spelled items ++ [10]) by (rewrite spelled_app; reflexivity).
  rewrite <- Sp in *.
  pose proof (text_shows m fb clip c st (items ++ [Newline]) Hm Hfb Hp Hw Hc R) as T.
  rewrite (typeset_line_break clip Hw items [Newline] H1 c Hx Hfit Hy) in T.
  pose proof (typeset_line clip Hw items H1 c Hx Hfit Hy) as L.
  destruct (typeset clip c items) as [spots c']. destruct L as (-> & F & _). cbn [typeset] in T.
  unfold new_line in T. csimpl. rewrite app_nil_r in T. destruct T as (fb' & E & _ & P).
  exists fb'. split; [exact E|]. intros x y Hx' Hy' D. rewrite (P x y Hx' Hy') in D.
  apply (spots_rows clip spots x y).
  - eapply Forall_impl; [|exact F]. intros s [A B]. cbn beta. lia.
  - destruct (spots_ink clip spots x y); [reflexivity|]. rewrite xorb_false_r in D. congruence.
Qed.
