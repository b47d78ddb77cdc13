(** * A boolean check of [font_ok], cheap enough to evaluate on the real tables *)
From Coq Require Import ZArith.
From Verif Require Import PaintRow LookupProofs.

Fixpoint pieces_okb (a : bigarr) : bool :=
  match a with
  | [] => true
  | p :: rest =>
      match rest with
      | [] => Nat.leb (length p) 512
      | _ => Nat.eqb (length p) 512 && pieces_okb rest
      end
  end.

Definition arr_size (a : bigarr) : N := fold_right (fun p n => N.of_nat (length p) + n) 0 a.

Fixpoint sortedb (l : list N) : bool :=
  match l with
  | [] => true
  | a :: t => match t with [] => true | b :: _ => (a <? b) && sortedb t end
  end.

Definition glyph_okb (f : font) (size off : N) : bool :=
  match bigarr_get (f_data f) off with
  | Panic => false
  | Ret h =>
      let w := N.land (N.shiftr h 16) 255 in
      let ht := N.land (N.shiftr h 8) 255 in
      let y := N.land h 255 in
      (1 <=? w) && (w <=? 32) && (1 <=? ht) && (ht + y <=? f_max_height f)
      && (off <? size)
      && (off + 1 + N.shiftr (w * ht + 31) 5 <=? size)
  end.

Definition block_okb (f : font) (size : N) (b : block) : bool :=
  Nat.eqb (length (b_hash b)) (length (b_offset b))
  && forallb (fun l => 1 <=? l) (b_limits b)
  && sortedb (b_hash b)
  && forallb (glyph_okb f size) (b_offset b).

Definition font_okb (f : font) : bool :=
  pieces_okb (f_data f)
  && forallb (forallb (fun w => w <? 4294967296)) (f_data f)
  && (f_max_height f <=? 255)
  && let size := arr_size (f_data f) in
     (size <? 2147483648) && forallb (block_okb f size) (f_blocks f).

Lemma pieces_okb_ok a : pieces_okb a = true -> pieces_ok a.
Proof.
  induction a as [|p rest IH]; [simpl; auto|].
  destruct rest as [|q r].
  - simpl. apply Nat.leb_le.
  - intros H. change (Nat.eqb (length p) 512 && pieces_okb (q :: r) = true) in H.
    apply andb_true_iff in H as [H1 H2]. apply Nat.eqb_eq in H1.
    split; [exact H1|apply IH; exact H2].
Qed.

Lemma arr_size_ok a : arr_size a = N.of_nat (length (concat a)).
Proof.
  induction a as [|p rest IH]; [reflexivity|].
  change (arr_size (p :: rest)) with (N.of_nat (length p) + arr_size rest).
  simpl concat. rewrite app_length, IH. lia.
Qed.

Lemma sortedb_ok l : sortedb l = true -> sorted_lt l.
Proof.
  induction l as [|a t IH]; intros H i j Hij; [simpl in Hij; lia|].
  destruct t as [|b t']; [simpl in Hij; lia|].
  change ((a <? b) && sortedb (b :: t') = true) in H.
  apply andb_true_iff in H as [H1 H2]. apply N.ltb_lt in H1. specialize (IH H2).
  destruct j as [|j]; [lia|]. destruct i as [|i].
  - destruct j as [|j]; [exact H1|].
    simpl nth at 1. specialize (IH O (S j)). simpl in Hij.
    assert (b < nth (S j) (b :: t') 0) by (apply IH; simpl; lia).
    change (nth (S (S j)) (a :: b :: t') 0) with (nth (S j) (b :: t') 0). lia.
  - change (nth (S i) (a :: b :: t') 0) with (nth i (b :: t') 0).
    change (nth (S j) (a :: b :: t') 0) with (nth j (b :: t') 0).
    apply IH. simpl in *; lia.
Qed.

Lemma forallb_Forall {A} (p : A -> bool) (P : A -> Prop) l :
  (forall a, p a = true -> P a) -> forallb p l = true -> Forall P l.
Proof.
  intros H E. rewrite forallb_forall in E. apply Forall_forall; auto.
Qed.

Lemma glyph_okb_ok f off :
  pieces_ok (f_data f) -> glyph_okb f (arr_size (f_data f)) off = true -> glyph_ok f off.
Proof.
  intros Hp. unfold glyph_okb. rewrite arr_size_ok.
  destruct (bigarr_get (f_data f) off) as [h|] eqn:E; [|discriminate].
  rewrite !andb_true_iff, !N.leb_le, !N.ltb_lt.
  intros [[[[[H1 H2] H3] H4] H5] H6].
  rewrite bigarr_get_ok in E by assumption. injection E as E. fold (font_word f off) in E.
  change 255 with (N.ones 8) in *. rewrite !N.land_ones, !N.shiftr_div_pow2 in *.
  change (2 ^ 8) with 256 in *. change (2 ^ 16) with 65536 in *. change (2 ^ 5) with 32 in *.
  split; unfold gl_w, gl_h, gl_y; rewrite E; try lia.
Qed.

Lemma block_okb_ok f b :
  pieces_ok (f_data f) -> block_okb f (arr_size (f_data f)) b = true ->
  block_ok f b /\ sorted_lt (b_hash b).
Proof.
  intros Hp. unfold block_okb. rewrite !andb_true_iff, Nat.eqb_eq.
  intros [[[H1 H2] H3] H4]. split; [split|].
  - exact H1.
  - revert H2; apply forallb_Forall; intros; apply N.leb_le; assumption.
  - revert H4; apply forallb_Forall; intros; apply glyph_okb_ok; assumption.
  - apply sortedb_ok; exact H3.
Qed.

Lemma font_okb_ok f : font_okb f = true -> font_ok f.
Proof.
  unfold font_okb. cbv zeta. rewrite !andb_true_iff.
  intros [[[H1 H2] H3] [H4 H5]]. apply pieces_okb_ok in H1.
  split.
  - exact H1.
  - apply Forall_concat. revert H2. apply forallb_Forall; intros p.
    apply forallb_Forall; intros w; apply N.ltb_lt.
  - rewrite <- arr_size_ok. apply N.ltb_lt; exact H4.
  - apply N.leb_le; exact H3.
  - revert H5. apply forallb_Forall; intros b Hb. apply (block_okb_ok f b H1 Hb).
  - revert H5. apply forallb_Forall; intros b Hb. apply (block_okb_ok f b H1 Hb).
Qed.
