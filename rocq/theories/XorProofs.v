(** * paint_str as a fixed set of inversions (XOR algebra)

    For given arguments other than the frame buffer, paint_str either panics on
    every frame buffer, or XORs one fixed buffer of inversions onto whatever is
    there and leaves one fixed cursor. No assumption on the fonts, the clip, the
    cursor or the build mode is made. *)
From Coq Require Import ZArith.
From Verif Require Import FbFacts Str FontDefs Blit.

Fixpoint bxor (a b : list N) : list N :=
  match a, b with
  | x :: a', y :: b' => N.lxor x y :: bxor a' b'
  | _, _ => []
  end.

Definition flen (fb : frbuf) : Prop := N.of_nat (length fb) = FRAME_BUF_SIZE.

Lemma bxor_length a b : length a = length b -> length (bxor a b) = length a.
Proof.
  revert b; induction a as [|x a IH]; intros [|y b] H; simpl in *; try lia.
  rewrite IH; lia.
Qed.
Lemma bxor_flen a b : flen a -> flen b -> flen (bxor a b).
Proof. unfold flen; intros; rewrite bxor_length; lia. Qed.
Lemma bxor_assoc a b c : bxor (bxor a b) c = bxor a (bxor b c).
Proof.
  revert b c; induction a as [|x a IH]; intros [|y b] [|z c]; simpl; try reflexivity.
  rewrite N.lxor_assoc, IH; reflexivity.
Qed.
Lemma bxor_comm a b : bxor a b = bxor b a.
Proof.
  revert b; induction a as [|x a IH]; intros [|y b]; simpl; try reflexivity.
  rewrite N.lxor_comm, IH; reflexivity.
Qed.
Lemma bxor_cancel a b : length a = length b -> bxor (bxor a b) b = a.
Proof.
  revert b; induction a as [|x a IH]; intros [|y b] H; simpl in *; try reflexivity; try lia.
  rewrite N.lxor_assoc, N.lxor_nilpotent, N.lxor_0_r, IH by lia; reflexivity.
Qed.
Lemma bxor_zeros a n : length a = n -> bxor a (repeat 0 n) = a.
Proof.
  revert n; induction a as [|x a IH]; intros [|n] H; simpl in *; try reflexivity; try lia.
  rewrite N.lxor_0_r, IH by lia; reflexivity.
Qed.
Lemma bxor_single a n i p :
  length a = n -> (i < n)%nat ->
  bxor a (upd (repeat 0 n) i p) = upd a i (N.lxor (nth i a 0) p).
Proof.
  revert n i; induction a as [|x a IH]; intros [|n] i H Hi; simpl in *; try reflexivity; try lia.
  destruct i as [|i]; simpl.
  - rewrite bxor_zeros by lia; reflexivity.
  - rewrite N.lxor_0_r, IH by lia; reflexivity.
Qed.
Lemma nth_bxor a b i : length a = length b -> nth i (bxor a b) 0 = N.lxor (nth i a 0) (nth i b 0).
Proof.
  revert b i; induction a as [|x a IH]; intros [|y b] i H; simpl in *; try lia.
  - destruct i; reflexivity.
  - destruct i; simpl; [reflexivity|]. apply IH; lia.
Qed.

(** A computation that uses the frame buffer only by XORing a fixed buffer *)
Definition tog (run : frbuf -> res frbuf) : Prop :=
  (forall fb, flen fb -> run fb = Panic) \/
  (exists d, flen d /\ forall fb, flen fb -> run fb = Ret (bxor fb d)).

Definition togA {A} (run : frbuf -> res (frbuf * A)) : Prop :=
  (forall fb, flen fb -> run fb = Panic) \/
  (exists d a, flen d /\ forall fb, flen fb -> run fb = Ret (bxor fb d, a)).

Definition zeros : frbuf := repeat 0 (N.to_nat FRAME_BUF_SIZE).
Lemma zeros_flen : flen zeros.
Proof. unfold flen, zeros; rewrite repeat_length; lia. Qed.
Lemma bxor_zeros' fb : flen fb -> bxor fb zeros = fb.
Proof. unfold flen; intros; apply bxor_zeros; lia. Qed.

Lemma tog_ret : tog (fun fb => Ret fb).
Proof.
  right; exists zeros; split; [exact zeros_flen|].
  intros fb H; rewrite bxor_zeros' by assumption; reflexivity.
Qed.
Lemma togA_ret {A} (a : A) : togA (fun fb => Ret (fb, a)).
Proof.
  right; exists zeros, a; split; [exact zeros_flen|].
  intros fb H; rewrite bxor_zeros' by assumption; reflexivity.
Qed.
Lemma tog_panic : tog (fun _ => Panic).
Proof. left; reflexivity. Qed.
Lemma togA_panic {A} : togA (A := A) (fun _ => Panic).
Proof. left; reflexivity. Qed.
Lemma tog_pure {B} (x : res B) (k : B -> frbuf -> res frbuf) :
  (forall b, tog (k b)) -> tog (fun fb => bind x (fun b => k b fb)).
Proof. intros H; destruct x as [b|]; simpl; [apply H|apply tog_panic]. Qed.
Lemma togA_pure {A B} (x : res B) (k : B -> frbuf -> res (frbuf * A)) :
  (forall b, togA (k b)) -> togA (fun fb => bind x (fun b => k b fb)).
Proof. intros H; destruct x as [b|]; simpl; [apply H|apply togA_panic]. Qed.

Lemma tog_seq run k : tog run -> tog k -> tog (fun fb => bind (run fb) k).
Proof.
  intros [H1|(d1 & L1 & H1)] H2.
  - left; intros fb L; rewrite H1 by assumption; reflexivity.
  - destruct H2 as [H2|(d2 & L2 & H2)].
    + left; intros fb L; rewrite H1 by assumption; simpl.
      apply H2, bxor_flen; assumption.
    + right; exists (bxor d1 d2); split; [apply bxor_flen; assumption|].
      intros fb L; rewrite H1 by assumption; simpl.
      rewrite H2 by (apply bxor_flen; assumption). rewrite bxor_assoc; reflexivity.
Qed.
Lemma tog_seqA {A} run (k : frbuf -> res (frbuf * A)) :
  tog run -> togA k -> togA (fun fb => bind (run fb) k).
Proof.
  intros [H1|(d1 & L1 & H1)] H2.
  - left; intros fb L; rewrite H1 by assumption; reflexivity.
  - destruct H2 as [H2|(d2 & a & L2 & H2)].
    + left; intros fb L; rewrite H1 by assumption; simpl.
      apply H2, bxor_flen; assumption.
    + right; exists (bxor d1 d2), a; split; [apply bxor_flen; assumption|].
      intros fb L; rewrite H1 by assumption; simpl.
      rewrite H2 by (apply bxor_flen; assumption). rewrite bxor_assoc; reflexivity.
Qed.
Definition bindA {A B} (r : res (frbuf * A)) (k : A -> frbuf -> res (frbuf * B)) : res (frbuf * B) :=
  bind r (fun p => k (snd p) (fst p)).
Lemma togA_seq {A B} (run : frbuf -> res (frbuf * A)) (k : A -> frbuf -> res (frbuf * B)) :
  togA run -> (forall a, togA (k a)) ->
  togA (fun fb => bindA (run fb) k).
Proof.
  unfold bindA.
  intros [H1|(d1 & a1 & L1 & H1)] H2.
  - left; intros fb L; rewrite H1 by assumption; reflexivity.
  - destruct (H2 a1) as [H3|(d2 & a & L2 & H3)].
    + left; intros fb L; rewrite H1 by assumption; simpl.
      apply H3, bxor_flen; assumption.
    + right; exists (bxor d1 d2), a; split; [apply bxor_flen; assumption|].
      intros fb L; rewrite H1 by assumption; simpl.
      rewrite H3 by (apply bxor_flen; assumption). rewrite bxor_assoc; reflexivity.
Qed.

Lemma togA_ext {A} (r1 r2 : frbuf -> res (frbuf * A)) :
  (forall fb, r1 fb = r2 fb) -> togA r1 -> togA r2.
Proof.
  intros E [H|(d & a & L & H)].
  - left; intros fb Hf; rewrite <- E; auto.
  - right; exists d, a; split; [assumption|]; intros fb Hf; rewrite <- E; auto.
Qed.

Lemma tog_xor_word i p :
  tog (fun fb => v <- aget fb i ;; aset fb i (N.lxor v p)).
Proof.
  destruct (N.lt_ge_cases i FRAME_BUF_SIZE) as [Hi|Hi].
  - right; exists (upd zeros (N.to_nat i) p). split.
    { unfold flen; rewrite upd_length; exact zeros_flen. }
    intros fb L. unfold flen in L.
    rewrite (aget_ok fb i 0) by lia. simpl bind.
    rewrite aset_ok by lia. unfold zeros.
    rewrite bxor_single by lia. reflexivity.
  - left; intros fb L. unfold flen in L. rewrite aget_panic by lia. reflexivity.
Qed.

Lemma tog_for_n body n i : (forall j, tog (body j)) -> tog (for_n n i body).
Proof.
  intros H; revert i; induction n as [|n IH]; intros i; simpl; [apply tog_ret|].
  apply (tog_seq (body i) (for_n n (i + 1) body)); auto.
Qed.

Lemma tog_xor_row m f clip offset w lo hi px_lo y0 y :
  tog (xor_row m f clip offset w lo hi px_lo y0 y).
Proof.
  unfold xor_row.
  apply tog_pure; intros yy.
  destruct (yy <? py (cmin clip)); [apply tog_ret|].
  apply tog_pure; intros pat.
  apply tog_pure; intros yy'. apply tog_pure; intros base. apply tog_pure; intros i.
  apply tog_pure; intros k. apply tog_pure; intros p.
  assert (Hx : tog (fun fb => fb <- (v <- aget fb i ;; aset fb i (N.lxor v p)) ;;
     (if px_lo <? w then
      i <- uadd m base hi ;;
      p <- shr32 m pat px_lo ;;
      v <- aget fb i ;;
      aset fb i (N.lxor v p)
      else Ret fb))).
  { apply tog_seq; [apply tog_xor_word|].
    destruct (px_lo <? w); [|apply tog_ret].
    apply tog_pure; intros i2. apply tog_pure; intros p2. apply tog_xor_word. }
  destruct Hx as [H|(d & L & H)].
  - left; intros fb Hf; rewrite <- (H fb Hf). destruct (aget fb i); reflexivity.
  - right; exists d; split; [assumption|].
    intros fb Hf; rewrite <- (H fb Hf). destruct (aget fb i); reflexivity.
Qed.

(** xor_char, with the triple re-associated *)
Definition assoc3 {A B C} (r : res (A * B * C)) : res (A * (B * C)) :=
  match r with Ret (a, b, c) => Ret (a, (b, c)) | Panic => Panic end.

Lemma togA_xor_char m F clip c cluster gs :
  togA (fun fb => assoc3 (xor_char m F fb clip c cluster gs)).
Proof.
  unfold xor_char.
  destruct (_ || _ || _); [apply togA_ret|].
  destruct (get_blit_pattern_offset (F gs) cluster) as [[[off used]|]|]; cbn [bind];
    [|apply togA_ret|apply togA_panic].
  destruct (header (F gs) off) as [g|]; cbn [bind]; [|apply togA_panic].
  destruct (32 <? gw g); [apply togA_ret|].
  match goal with |- context [cx ?t] => set (c0 := t) end.
  destruct (uadd m (cx c0) 1) as [x0|]; cbn [bind]; [|apply togA_panic].
  destruct (uadd m x0 (gw g)) as [e|]; cbn [bind]; [|apply togA_panic].
  destruct (uadd m e 2) as [e2|]; cbn [bind]; [|apply togA_panic].
  match goal with |- context [bind (if px (cmax clip) <=? e2 then ?a else ?b) _] =>
    destruct (if px (cmax clip) <=? e2 then a else b) as [[c1 x1]|] end; cbn [bind]; [|apply togA_panic].
  destruct (uadd m x1 (gw g)) as [x2|]; cbn [bind]; [|apply togA_panic].
  destruct (usub m 32 (uand1f x1)) as [pl|]; cbn [bind]; [|apply togA_panic].
  destruct (uadd m (cy c1) (gy g)) as [y0|]; cbn [bind]; [|apply togA_panic].
  destruct (py (cmax clip) <? y0); [apply togA_ret|].
  destruct (uadd m y0 (gh g)) as [e3|]; cbn [bind]; [|apply togA_panic].
  match goal with |- context [bind (if e3 <=? py (cmax clip) then ?a else ?b) _] =>
    destruct (if e3 <=? py (cmax clip) then a else b) as [ym|] end; cbn [bind]; [|apply togA_panic].
  apply (togA_ext (fun fb =>
     bind (for_range 0 ym (xor_row m (F gs) clip off (gw g) (ushr5 x1) (ushr5 x2) pl y0) fb)
       (fun fb => assoc3 (width <- uadd m (gw g) 3 ;;
            x <- uadd m (cx c1) width ;;
            let font_line_height := f_max_height (F gs) in
            let lh := if line_height c1 <? font_line_height
                      then font_line_height else line_height c1 in
            Ret (fb, Cursor (Pt x (cy c1)) lh, Some used))))).
  { intros fb; destruct (for_range _ _ _ _); reflexivity. }
  apply tog_seqA; [apply tog_for_n; intros j; apply tog_xor_row|].
  destruct (uadd m (gw g) 3) as [wd|]; cbn [bind]; [|apply togA_panic].
  destruct (uadd m (cx c1) wd) as [xx|]; cbn [bind]; [|apply togA_panic].
  apply togA_ret.
Qed.

(** The body of the loop of paint_str written over re-associated triples *)
Definition step4 m F clip st (c : cursor) (cluster : str) (fb : frbuf)
  : res (frbuf * (cursor * str)) :=
  bindA (assoc3 (xor_char m F fb clip c cluster Emoji))
    (fun a fb => match snd a with
     | Some n => rest <- slice_from cluster n ;; Ret (fb, (fst a, rest))
     | None =>
    bindA (assoc3 (xor_char m F fb clip (fst a) cluster (latin_set st)))
    (fun a fb => match snd a with
     | Some n => rest <- slice_from cluster n ;; Ret (fb, (fst a, rest))
     | None =>
    bindA (assoc3 (xor_char m F fb clip (fst a) cluster Hanzi))
    (fun a fb => match snd a with
     | Some n => rest <- slice_from cluster n ;; Ret (fb, (fst a, rest))
     | None =>
    bindA (assoc3 (xor_char m F fb clip (fst a) replacement (latin_set st)))
    (fun a fb => match snd a with
     | Some _ =>
         match nth_error (char_indices cluster) 1 with
         | Some (i, _) => rest <- slice_from cluster i ;; Ret (fb, (fst a, rest))
         | None => Ret (fb, (fst a, cluster))
         end
     | None => Ret (fb, (fst a, cluster))
     end)
     end)
     end)
     end).

Lemma togA_step4 m F clip st c cluster : togA (step4 m F clip st c cluster).
Proof.
  unfold step4.
  apply togA_seq; [apply togA_xor_char|]. intros [c1 [n|]]; cbn [fst snd].
  { apply togA_pure; intros; apply togA_ret. }
  apply togA_seq; [apply togA_xor_char|]. intros [c2 [n|]]; cbn [fst snd].
  { apply togA_pure; intros; apply togA_ret. }
  apply togA_seq; [apply togA_xor_char|]. intros [c3 [n|]]; cbn [fst snd].
  { apply togA_pure; intros; apply togA_ret. }
  apply togA_seq; [apply togA_xor_char|]. intros [c4 [n|]]; cbn [fst snd].
  - destruct (nth_error _ 1) as [[i u]|]; [|apply togA_ret].
    apply togA_pure; intros; apply togA_ret.
  - apply togA_ret.
Qed.

(** The non-newline branch of paint_step *)
Definition step_glyph m F clip st (c : cursor) (cluster : str) (fb : frbuf)
  : res (frbuf * cursor * str) :=
      '(fb, c, r) <- xor_char m F fb clip c cluster Emoji ;;
      match r with
      | Some n => rest <- slice_from cluster n ;; Ret (fb, c, rest)
      | None =>
          '(fb, c, r) <- xor_char m F fb clip c cluster (latin_set st) ;;
          match r with
          | Some n => rest <- slice_from cluster n ;; Ret (fb, c, rest)
          | None =>
              '(fb, c, r) <- xor_char m F fb clip c cluster Hanzi ;;
              match r with
              | Some n => rest <- slice_from cluster n ;; Ret (fb, c, rest)
              | None =>
                  '(fb, c, r) <- xor_char m F fb clip c replacement (latin_set st) ;;
                  match r with
                  | Some _ =>
                      match nth_error (char_indices cluster) 1 with
                      | Some (i, _) =>
                          rest <- slice_from cluster i ;; Ret (fb, c, rest)
                      | None => Ret (fb, c, cluster)
                      end
                  | None => Ret (fb, c, cluster)
                  end
              end
          end
      end.

Lemma paint_step_cases m F clip st fb c cluster :
  paint_step m F clip st fb c cluster =
  match cluster with
  | [] => step_glyph m F clip st c cluster fb
  | h :: _ =>
      if h =? 10 then c <- newline m F clip c ;; rest <- slice_from cluster 1 ;; Ret (fb, c, rest)
      else step_glyph m F clip st c cluster fb
  end.
Proof.
  destruct cluster as [|h t]; [reflexivity|].
  destruct (N.eqb_spec h 10) as [->|Hn]; [reflexivity|].
  unfold paint_step. fold (step_glyph m F clip st c (h :: t) fb).
  repeat (match goal with |- context [match ?x with _ => _ end] =>
    is_var x; destruct x; try reflexivity; try congruence end).
Qed.

Lemma step_glyph_assoc m F clip st c cluster fb :
  assoc3 (step_glyph m F clip st c cluster fb) = step4 m F clip st c cluster fb.
Proof.
  unfold step_glyph, step4, bindA.
  destruct (xor_char m F fb clip c cluster Emoji) as [[[fb1 c1] [n|]]|]; cbn [bind assoc3 fst snd];
    [destruct (slice_from cluster n); reflexivity| |reflexivity].
  destruct (xor_char m F fb1 clip c1 cluster (latin_set st)) as [[[fb2 c2] [n|]]|]; cbn [bind assoc3 fst snd];
    [destruct (slice_from cluster n); reflexivity| |reflexivity].
  destruct (xor_char m F fb2 clip c2 cluster Hanzi) as [[[fb3 c3] [n|]]|]; cbn [bind assoc3 fst snd];
    [destruct (slice_from cluster n); reflexivity| |reflexivity].
  destruct (xor_char m F fb3 clip c3 replacement (latin_set st)) as [[[fb4 c4] [n|]]|]; cbn [bind assoc3 fst snd];
    [|reflexivity|reflexivity].
  destruct (nth_error (char_indices cluster) 1) as [[i u]|]; [|reflexivity].
  destruct (slice_from cluster i); reflexivity.
Qed.

Lemma togA_paint_step m F clip st c cluster :
  togA (fun fb => assoc3 (paint_step m F clip st fb c cluster)).
Proof.
  apply (togA_ext (fun fb => match cluster with
  | [] => step4 m F clip st c cluster fb
  | h :: _ =>
      if h =? 10 then c <- newline m F clip c ;; rest <- slice_from cluster 1 ;; Ret (fb, (c, rest))
      else step4 m F clip st c cluster fb
  end)).
  { intros fb. rewrite paint_step_cases. destruct cluster as [|h t].
    - symmetry; apply step_glyph_assoc.
    - destruct (h =? 10); [|symmetry; apply step_glyph_assoc].
      destruct (newline m F clip c); cbn [bind]; [|reflexivity].
      destruct (slice_from (h :: t) 1); reflexivity. }
  destruct cluster as [|h t]; [apply togA_step4|].
  destruct (h =? 10); [|apply togA_step4].
  apply togA_pure; intros c'. apply togA_pure; intros rest. apply togA_ret.
Qed.

Lemma togA_paint_loop n m F clip st c cluster :
  togA (fun fb => paint_loop n m F clip st fb c cluster).
Proof.
  revert c cluster; induction n as [|n IH]; intros c cluster; simpl; [apply togA_ret|].
  destruct cluster as [|h t]; [apply togA_ret|].
  apply (togA_ext (fun fb => bindA (assoc3 (paint_step m F clip st fb c (h :: t)))
     (fun a fb => paint_loop n m F clip st fb (fst a) (snd a)))).
  { intros fb. destruct (paint_step m F clip st fb c (h :: t)) as [[[fb1 c1] s1]|]; reflexivity. }
  apply togA_seq; [apply togA_paint_step|]. intros [c1 s1]; apply IH.
Qed.

Lemma togA_paint_str m F clip c st s : togA (fun fb => paint_str m F fb clip c st s).
Proof. apply togA_paint_loop. Qed.

(** ** Consequences *)

Lemma is_frbuf_flen fb : is_frbuf fb -> flen fb.
Proof. intros [H _]; exact H. Qed.

Lemma paint_twice m F fb clip c st s fb' c' :
  is_frbuf fb -> paint_str m F fb clip c st s = Ret (fb', c') ->
  paint_str m F fb' clip c st s = Ret (fb, c').
Proof.
  intros Hfb E. apply is_frbuf_flen in Hfb.
  destruct (togA_paint_str m F clip c st s) as [H|(d & a & L & H)].
  - rewrite H in E by assumption; discriminate.
  - rewrite H in E by assumption. injection E as <- <-.
    rewrite H by (apply bxor_flen; assumption).
    rewrite bxor_cancel by (unfold flen in *; lia). reflexivity.
Qed.

Lemma pixel_bxor a b x y : flen a -> flen b -> pixel (bxor a b) x y = xorb (pixel a x y) (pixel b x y).
Proof.
  unfold flen; intros; unfold pixel; rewrite nth_bxor by lia. apply N.lxor_spec.
Qed.

Lemma paint_independent m F clip c st s fb1 fb2 :
  is_frbuf fb1 -> is_frbuf fb2 ->
  (paint_str m F fb1 clip c st s = Panic <-> paint_str m F fb2 clip c st s = Panic) /\
  forall fb1' c1 fb2' c2,
    paint_str m F fb1 clip c st s = Ret (fb1', c1) ->
    paint_str m F fb2 clip c st s = Ret (fb2', c2) ->
    c1 = c2 /\
    forall x y, xorb (pixel fb1 x y) (pixel fb1' x y) = xorb (pixel fb2 x y) (pixel fb2' x y).
Proof.
  intros H1 H2. apply is_frbuf_flen in H1, H2.
  destruct (togA_paint_str m F clip c st s) as [H|(d & a & L & H)].
  - rewrite !H by assumption. split; [tauto|]. discriminate.
  - rewrite !H by assumption. split; [split; discriminate|].
    intros fb1' c1 fb2' c2 E1 E2. injection E1 as <- <-. injection E2 as <- <-.
    split; [reflexivity|]. intros x y. rewrite !pixel_bxor by assumption.
    destruct (pixel fb1 x y), (pixel fb2 x y), (pixel d x y); reflexivity.
Qed.

Lemma paint_commute m F fb clipA cA stA sA clipB cB stB sB :
  is_frbuf fb ->
  forall fbA cA' fbAB cB',
    paint_str m F fb clipA cA stA sA = Ret (fbA, cA') ->
    paint_str m F fbA clipB cB stB sB = Ret (fbAB, cB') ->
    exists fbB, paint_str m F fb clipB cB stB sB = Ret (fbB, cB') /\
                paint_str m F fbB clipA cA stA sA = Ret (fbAB, cA').
Proof.
  intros Hfb fbA cA' fbAB cB' E1 E2. apply is_frbuf_flen in Hfb.
  destruct (togA_paint_str m F clipA cA stA sA) as [H|(d & a & L & H)];
    [rewrite H in E1 by assumption; discriminate|].
  rewrite H in E1 by assumption. injection E1 as <- <-.
  destruct (togA_paint_str m F clipB cB stB sB) as [H'|(d' & a' & L' & H')];
    [rewrite H' in E2 by (apply bxor_flen; assumption); discriminate|].
  rewrite H' in E2 by (apply bxor_flen; assumption). injection E2 as <- <-.
  exists (bxor fb d'). rewrite H' by assumption. split; [reflexivity|].
  rewrite H by (apply bxor_flen; assumption).
  rewrite !bxor_assoc, (bxor_comm d d'). reflexivity.
Qed.

Lemma paint_keeps_length m F fb clip c st s fb' c' :
  N.of_nat (length fb) = FRAME_BUF_SIZE -> paint_str m F fb clip c st s = Ret (fb', c') ->
  N.of_nat (length fb') = FRAME_BUF_SIZE.
Proof.
  intros Hfb E.
  destruct (togA_paint_str m F clip c st s) as [H|(d & a & L & H)];
    rewrite H in E by assumption; [discriminate|].
  injection E as <- <-. apply bxor_flen; assumption.
Qed.
