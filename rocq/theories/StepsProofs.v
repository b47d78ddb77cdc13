(** * Proofs: what a panic leaves behind *)
From Coq Require Import ZArith.
From Verif Require Import PrimFacts Str Geom FontDefs Blit BlitSteps Spec FbFacts.

(** ** The two models agree *)
Definition erase {A} (e : act A) (fb : frbuf) (c : cursor) : res (frbuf * cursor * A) :=
  match e (World fb c) with (w, Ret a) => Ret (w_fb w, w_cur w, a) | (_, Panic) => Panic end.

Lemma erase_bind {A B} (e : act A) (k : A -> act B) fb c :
  erase (andthen e k) fb c = bind (erase e fb c) (fun '(fb', c', a) => erase (k a) fb' c').
Proof.
  unfold erase, andthen. destruct (e (World fb c)) as [[fb' c'] [a|]]; reflexivity.
Qed.
Lemma erase_calc {A} (r : res A) fb c : erase (calc r) fb c = bind r (fun a => Ret (fb, c, a)).
Proof. destruct r; reflexivity. Qed.
Lemma erase_get fb c : erase get_cursor fb c = Ret (fb, c, c).
Proof. reflexivity. Qed.
Lemma erase_x x fb c : erase (set_x x) fb c = Ret (fb, Cursor (Pt x (cy c)) (line_height c), tt).
Proof. reflexivity. Qed.
Lemma erase_y y fb c : erase (set_y y) fb c = Ret (fb, Cursor (Pt (cx c) y) (line_height c), tt).
Proof. reflexivity. Qed.
Lemma erase_h h fb c : erase (set_height h) fb c = Ret (fb, Cursor (cpt c) h, tt).
Proof. reflexivity. Qed.
Lemma erase_skip fb c : erase skip fb c = Ret (fb, c, tt).
Proof. reflexivity. Qed.
Lemma erase_word i f fb c :
  erase (change_word i f) fb c = bind (aget fb i) (fun v => bind (aset fb i (f v)) (fun fb' => Ret (fb', c, tt))).
Proof.
  unfold erase, change_word, aget, aset; cbn [w_fb w_cur]. destruct (nth_error fb (N.to_nat i)); reflexivity.
Qed.
Lemma bind_assoc {A B C} (x : res A) (f : A -> res B) (g : B -> res C) : bind (bind x f) g = bind x (fun a => bind (f a) g).
Proof. destruct x; reflexivity. Qed.
Lemma bind_ext {A B} (x : res A) (f g : A -> res B) : (forall a, f a = g a) -> bind x f = bind x g.
Proof. destruct x; intros H; [apply H|reflexivity]. Qed.

Lemma erase_each_n n : forall i body run fb c,
  (forall i fb, erase (body i) fb c = bind (run i fb) (fun fb' => Ret (fb', c, tt))) ->
  erase (each_n n i body) fb c = bind (for_n n i run fb) (fun fb' => Ret (fb', c, tt)).
Proof.
  induction n as [|n IH]; intros i body run fb c H; [reflexivity|]. cbn [each_n for_n].
  rewrite erase_bind, H, !bind_assoc. apply bind_ext. intros fb'. cbn [bind]. apply IH, H.
Qed.
Lemma erase_each lo hi body run fb c :
  (forall i fb, erase (body i) fb c = bind (run i fb) (fun fb' => Ret (fb', c, tt))) ->
  erase (each lo hi body) fb c = bind (for_range lo hi run fb) (fun fb' => Ret (fb', c, tt)).
Proof. apply erase_each_n. Qed.

Ltac erase_step :=
  repeat (progress (rewrite ?erase_bind, ?erase_calc, ?erase_get, ?erase_x, ?erase_y, ?erase_h, ?erase_skip, ?erase_word, ?bind_assoc; cbn [bind])).

Lemma aset_panic_get {A} (fb : list A) i v : aget fb i = Panic -> aset fb i v = Panic.
Proof. unfold aget, aset. destruct (nth_error fb (N.to_nat i)); [discriminate|reflexivity]. Qed.
Lemma aset_get {A B} (fb : list A) i v (k : list A -> res B) :
  bind (aget fb i) (fun _ => bind (aset fb i v) k) = bind (aset fb i v) k.
Proof. unfold aget, aset. destruct (nth_error fb (N.to_nat i)); reflexivity. Qed.

Lemma clear_row_erase m lo hi a b y fb c :
  erase (clear_row_steps m lo hi a b y) fb c = bind (clear_row m lo hi a b y fb) (fun fb' => Ret (fb', c, tt)).
Proof.
  unfold clear_row_steps, clear_row. erase_step. apply bind_ext; intros base. erase_step. apply bind_ext; intros k.
  erase_step. apply bind_ext; intros mask. erase_step. apply bind_ext; intros i. erase_step. apply bind_ext; intros v.
  erase_step. apply bind_ext; intros fb1. erase_step.
  rewrite (erase_each _ _ _ (fun w fb => bind (uadd m base w) (fun i => aset fb i 0xffffffff))).
  2:{ intros j g. erase_step. apply bind_ext; intros i'. erase_step. apply aset_get. }
  erase_step. apply bind_ext; intros fb2. erase_step.
  destruct (lo <? hi); [|reflexivity]. erase_step. apply bind_ext; intros k2. erase_step. apply bind_ext; intros mask2.
  erase_step. apply bind_ext; intros i2. erase_step. reflexivity.
Qed.
Lemma clear_erase m clip fb c :
  erase (clear_region_steps m clip) fb c = bind (clear_region m fb clip) (fun fb' => Ret (fb', c, tt)).
Proof.
  unfold clear_region_steps, clear_region. destruct (_ || _); [reflexivity|]. cbv zeta. erase_step. apply bind_ext; intros a.
  apply erase_each. intros i g. apply clear_row_erase.
Qed.

Lemma newline_erase m F clip fb c :
  erase (newline_steps m F clip) fb c = bind (newline m F clip c) (fun c' => Ret (fb, c', tt)).
Proof.
  unfold newline_steps, newline. cbv zeta. erase_step. cbn [line_height cpt cx cy px py].
  destruct (line_height c <? f_max_height (F Small)); erase_step; cbn [line_height cpt cx cy px py];
    (apply bind_ext; intros d; erase_step; apply bind_ext; intros y; reflexivity).
Qed.

Lemma xor_row_erase m f clip off w lo hi a y0 y fb c :
  erase (xor_row_steps m f clip off w lo hi a y0 y) fb c
  = bind (xor_row m f clip off w lo hi a y0 y fb) (fun fb' => Ret (fb', c, tt)).
Proof.
  unfold xor_row_steps, xor_row. erase_step. apply bind_ext; intros yy. destruct (yy <? py (cmin clip)); [reflexivity|].
  do 6 (erase_step; apply bind_ext; intros ?). erase_step. apply bind_ext; intros v. erase_step. apply bind_ext; intros fb1. erase_step.
  destruct (a <? w); [|reflexivity]. do 2 (erase_step; apply bind_ext; intros ?). erase_step. reflexivity.
Qed.

Lemma xor_char_erase m F clip cluster gs fb c :
  erase (xor_char_steps m F clip cluster gs) fb c = xor_char m F fb clip c cluster gs.
Proof.
  unfold xor_char_steps, xor_char. destruct (_ || _); [reflexivity|]. erase_step. apply bind_ext; intros [[off n]|]; [|reflexivity].
  erase_step. apply bind_ext; intros g. destruct (32 <? gw g); [reflexivity|]. erase_step.
  set (c1 := if cx c <? px (cmin clip) then _ else c).
  assert (E : erase (if cx c <? px (cmin clip) then set_x (px (cmin clip)) else skip) fb c = Ret (fb, c1, tt)).
  { unfold c1. destruct (_ <? _); reflexivity. }
  rewrite E. clear E. erase_step. apply bind_ext; intros x0. erase_step. apply bind_ext; intros e. erase_step. apply bind_ext; intros e2.
  erase_step.
  match goal with |- context [erase (if ?b then _ else _) fb c1] => set (t := b) end.
  assert (E : forall B (k : frbuf * cursor * N -> res B), bind (erase (if t then newline_steps m F clip;;; (c <~ get_cursor;; calc (uadd m (cx c) 1)) else calc (Ret x0)) fb c1) k
    = bind (if t then c2 <- newline m F clip c1;; x2 <- uadd m (cx c2) 1;; Ret (c2, x2) else Ret (c1, x0)) (fun '(c2, x2) => k (fb, c2, x2))).
  { intros B k. destruct t; [|reflexivity]. erase_step. rewrite newline_erase. rewrite !bind_assoc. apply bind_ext; intros c2. erase_step.
    apply bind_ext; intros x2. reflexivity. }
  rewrite E. clear E. apply bind_ext; intros [c2 x2]. erase_step. apply bind_ext; intros x1. erase_step. apply bind_ext; intros a.
  erase_step. apply bind_ext; intros y0. destruct (_ <? y0); [reflexivity|]. erase_step. apply bind_ext; intros e3. erase_step. apply bind_ext; intros ym.
  erase_step. rewrite (erase_each _ _ _ (xor_row m (F gs) clip off (gw g) (ushr5 x2) (ushr5 x1) a y0)) by (intros; apply xor_row_erase).
  erase_step. apply bind_ext; intros fb'. erase_step. apply bind_ext; intros wd. erase_step. apply bind_ext; intros x. erase_step.
  cbn [line_height cpt cx cy px py]. destruct (line_height c2 <? f_max_height (F gs)); reflexivity.
Qed.

Lemma paint_step_erase m F clip st s fb c :
  erase (paint_step_steps m F clip st s) fb c = paint_step m F clip st fb c s.
Proof.
  assert (S : forall r fb c, erase (calc (slice_from s r)) fb c = bind (slice_from s r) (fun rest => Ret (fb, c, rest))) by (intros; apply erase_calc).
  assert (G : erase (r <~ xor_char_steps m F clip s Emoji ;;
      match r with
      | Some n => calc (slice_from s n)
      | None =>
          r <~ xor_char_steps m F clip s (latin_set st) ;;
          match r with
          | Some n => calc (slice_from s n)
          | None =>
              r <~ xor_char_steps m F clip s Hanzi ;;
              match r with
              | Some n => calc (slice_from s n)
              | None =>
                  r <~ xor_char_steps m F clip replacement (latin_set st) ;;
                  match r with
                  | Some _ =>
                      match nth_error (char_indices s) 1 with
                      | Some (i, _) => calc (slice_from s i)
                      | None => calc (Ret s)
                      end
                  | None => calc (Ret s)
                  end
              end
          end
      end) fb c = ('(fb, c, r) <- xor_char m F fb clip c s Emoji ;;
      match r with
      | Some n => rest <- slice_from s n ;; Ret (fb, c, rest)
      | None =>
          '(fb, c, r) <- xor_char m F fb clip c s (latin_set st) ;;
          match r with
          | Some n => rest <- slice_from s n ;; Ret (fb, c, rest)
          | None =>
              '(fb, c, r) <- xor_char m F fb clip c s Hanzi ;;
              match r with
              | Some n => rest <- slice_from s n ;; Ret (fb, c, rest)
              | None =>
                  '(fb, c, r) <- xor_char m F fb clip c replacement (latin_set st) ;;
                  match r with
                  | Some _ =>
                      match nth_error (char_indices s) 1 with
                      | Some (i, _) =>
                          rest <- slice_from s i ;; Ret (fb, c, rest)
                      | None => Ret (fb, c, s)
                      end
                  | None => Ret (fb, c, s)
                  end
              end
          end
      end)).
  { rewrite erase_bind, xor_char_erase. apply bind_ext; intros [[fb1 c1] [n|]]; [apply S|].
    rewrite erase_bind, xor_char_erase. apply bind_ext; intros [[fb2 c2] [n|]]; [apply S|].
    rewrite erase_bind, xor_char_erase. apply bind_ext; intros [[fb3 c3] [n|]]; [apply S|].
    rewrite erase_bind, xor_char_erase. apply bind_ext; intros [[fb4 c4] [n|]]; [|reflexivity].
    destruct (nth_error (char_indices s) 1) as [[i u]|]; [apply S|reflexivity]. }
  unfold paint_step_steps, paint_step. destruct s as [|ch t]; [exact G|].
  destruct (N.eq_dec ch 10) as [->|Hn].
  - erase_step. rewrite newline_erase, bind_assoc. apply bind_ext; intros c'. cbn [bind]. apply S.
  - assert (X : forall A (a b : A), match ch with 10 => a | _ => b end = b).
    { intros A a b. destruct ch as [|p]; [reflexivity|]. do 4 (destruct p as [p|p|]; try reflexivity). exfalso; apply Hn; reflexivity. }
    etransitivity; [|etransitivity; [exact G|]].
    + f_equal. apply X.
    + symmetry. apply X.
Qed.

Lemma paint_loop_erase n m F clip st : forall s fb c,
  erase (paint_loop_steps n m F clip st s) fb c = bind (paint_loop n m F clip st fb c s) (fun '(fb', c') => Ret (fb', c', tt)).
Proof.
  induction n as [|n IH]; intros s fb c; [reflexivity|]. cbn [paint_loop_steps paint_loop]. destruct s as [|ch t]; [reflexivity|].
  rewrite erase_bind, paint_step_erase, bind_assoc. apply bind_ext; intros [[fb' c'] rest]. apply IH.
Qed.
Lemma paint_erase m F clip st s fb c :
  erase (paint_str_steps m F clip st s) fb c = bind (paint_str m F fb clip c st s) (fun '(fb', c') => Ret (fb', c', tt)).
Proof. apply paint_loop_erase. Qed.

(** ** Steps that return *)
Lemma erase_ret {A} (e : act A) fb c fb' c' a : erase e fb c = Ret (fb', c', a) -> e (World fb c) = (World fb' c', Ret a).
Proof.
  unfold erase. destruct (e (World fb c)) as [[f d] [b|]]; [|discriminate]. cbn [w_fb w_cur]. intros E. congruence.
Qed.
Lemma erase_panic {A} (e : act A) fb c : erase e fb c = Panic <-> snd (e (World fb c)) = Panic.
Proof. unfold erase. destruct (e (World fb c)) as [[f d] [b|]]; cbn [snd]; split; congruence. Qed.

Lemma run_then {A B} (e : act A) (k : A -> act B) w w' a : e w = (w', Ret a) -> andthen e k w = k a w'.
Proof. intros E. unfold andthen. rewrite E. reflexivity. Qed.
Lemma run_panic {A B} (e : act A) (k : A -> act B) w w' : e w = (w', Panic) -> andthen e k w = (w', Panic).
Proof. intros E. unfold andthen. rewrite E. reflexivity. Qed.
Lemma run_calc {A B} (a : A) (k : A -> act B) w : andthen (calc (Ret a)) k w = k a w.
Proof. reflexivity. Qed.
Lemma run_get {B} (k : cursor -> act B) w : andthen get_cursor k w = k (w_cur w) w.
Proof. reflexivity. Qed.

Lemma each_n_last n : forall i body w, each_n (S n) i body w = (each_n n i body ;;; body (i + N.of_nat n)) w.
Proof.
  induction n as [|n IH]; intros i body w.
  - cbn [each_n]. rewrite N.add_0_r. unfold andthen, skip, calc. destruct (body i w) as [w' [[]|]]; reflexivity.
  - cbn [each_n] in *. unfold andthen in *. destruct (body i w) as [w1 [[]|]]; [|reflexivity].
    rewrite IH. cbn [each_n]. replace (i + 1 + N.of_nat n) with (i + N.of_nat (S n)) by lia. reflexivity.
Qed.
Lemma each_last hi body w : 0 < hi -> each 0 hi body w = (each 0 (hi - 1) body ;;; body (hi - 1)) w.
Proof.
  intros H. unfold each. replace (N.to_nat (hi - 0)) with (S (N.to_nat (hi - 1 - 0))) by lia. rewrite each_n_last.
  replace (0 + N.of_nat (N.to_nat (hi - 1 - 0))) with (hi - 1) by lia. reflexivity.
Qed.

Lemma change_ok i f fb c : is_frbuf fb -> i < FRAME_BUF_SIZE ->
  change_word i f (World fb c) = (World (upd fb (N.to_nat i) (f (nth (N.to_nat i) fb 0))) c, Ret tt).
Proof.
  intros H Hi. unfold change_word; cbn [w_fb w_cur]. rewrite (@List.nth_error_nth' N fb (N.to_nat i) 0); [reflexivity|].
  unfold is_frbuf in H. lia.
Qed.
Lemma change_out i f fb c : is_frbuf fb -> FRAME_BUF_SIZE <= i -> change_word i f (World fb c) = (World fb c, Panic).
Proof.
  intros H Hi. unfold change_word; cbn [w_fb w_cur]. rewrite (proj2 (nth_error_None fb (N.to_nat i))); [reflexivity|].
  unfold is_frbuf in H. lia.
Qed.
