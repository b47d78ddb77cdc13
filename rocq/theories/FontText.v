(** * How the real fonts read strings *)
From Coq Require Import ZArith.
From Verif Require Export TextProofs Fonts FontsOk.

(** A block whose only limit is 1 looks at one character *)
Lemma glyph_for_single f ch t :
  match find (fun b => (b_low b <=? ch) && (ch <=? b_high b)) (f_blocks f) with
  | Some b => b_limits b = [1]
  | None => True
  end -> glyph_for f (ch :: t) = glyph_for f [ch].
Proof.
  unfold glyph_for. destruct (find _ (f_blocks f)) as [b|]; [|reflexivity].
  intros ->. cbn [match_limits]. rewrite !grapheme_cluster_spec. cbn [fst].
  change (firstn (N.to_nat 1) (ch :: t)) with [ch].
  change (firstn (N.to_nat 1) [ch]) with [ch].
  destruct (index_of _ _) as [k|]; [|reflexivity].
  change (N.to_nat 1) with 1%nat. simpl length. rewrite !Nat.min_l by lia. reflexivity.
Qed.

Definition repl_offset (st : glyphstyle) : N :=
  match glyph_for (blitstr_fonts (latin_set st)) replacement with Some (off, _) => off | None => 0 end.

Lemma replacement_read st t :
  choose blitstr_fonts st (0xFFFD :: t) = (latin_set st, repl_offset st, t, true).
Proof.
  unfold choose.
  rewrite (glyph_for_single (blitstr_fonts Emoji)) by (vm_compute; reflexivity || exact I).
  rewrite (glyph_for_single (blitstr_fonts (latin_set st))) by (destruct st; vm_compute; reflexivity).
  replace (glyph_for (blitstr_fonts Emoji) [0xFFFD]) with (@None (N * nat)) by (vm_compute; reflexivity).
  unfold repl_offset, replacement.
  destruct st; (match goal with |- context [glyph_for ?f [0xFFFD]] =>
    let r := eval vm_compute in (glyph_for f [0xFFFD]) in
    replace (glyph_for f [0xFFFD]) with r by (vm_compute; reflexivity) end); reflexivity.
Qed.

Lemma unknown_read st u gs o r :
  choose blitstr_fonts st u = (gs, o, r, false) -> gs = latin_set st /\ o = repl_offset st.
Proof.
  unfold choose.
  destruct (glyph_for (blitstr_fonts Emoji) u) as [[]|]; [discriminate|].
  destruct (glyph_for (blitstr_fonts (latin_set st)) u) as [[]|]; [discriminate|].
  destruct (glyph_for (blitstr_fonts Hanzi) u) as [[]|]; [discriminate|].
  intros E; injection E as <- <- _. auto.
Qed.

Lemma paint_unknown m fb clip c st s s' :
  cfg_ok m -> is_frbuf fb -> paintable clip -> 36 <= clip_width clip ->
  shown blitstr_fonts st s s' -> fits (length s) blitstr_fonts clip st c s = true ->
  cursor_fits m blitstr_fonts c s -> cursor_fits m blitstr_fonts c s' ->
  paint_str m blitstr_fonts fb clip c st s = paint_str m blitstr_fonts fb clip c st s'.
Proof.
  intros. apply paint_shown; try assumption; [exact fonts_ok|].
  intros t. exists (repl_offset st). split; [apply replacement_read|apply unknown_read].
Qed.
