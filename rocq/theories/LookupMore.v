(** * Longest match, prefix dependence, height hint *)
From Coq Require Import ZArith.
From Verif Require Export FontText M3Hash.

Fixpoint desc (l : list N) : bool :=
  match l with
  | [] => true
  | a :: t => match t with b :: _ => b <? a | [] => true end && desc t
  end.

Definition limitsb (f : font) : bool :=
  forallb (fun b => desc (b_limits b) && forallb (fun l => (1 <=? l) && (l <=? 8)) (b_limits b)) (f_blocks f).

Lemma limits_fonts gs : limitsb (blitstr_fonts gs) = true.
Proof. destruct gs; vm_compute; reflexivity. Qed.

Lemma desc_head a l : desc (a :: l) = true -> Forall (fun b => b < a) l /\ desc l = true.
Proof.
  revert a; induction l as [|b l IH]; intros a H; [split; [constructor|reflexivity]|].
  cbn [desc] in H. apply andb_prop in H as [H1 H2]. split; [|exact H2].
  destruct (IH b H2) as [H3 _]. constructor; [lia|].
  eapply Forall_impl; [|exact H3]. intros; simpl in *; lia.
Qed.

Lemma match_limits_longest f b s limits off n :
  desc limits = true -> match_limits f b s limits = Some (off, n) ->
  forall l, In l limits -> (n < Nat.min (N.to_nat l) (length s))%nat ->
    ~ In (fst (grapheme_cluster s (f_seed f) l)) (b_hash b).
Proof.
  induction limits as [|l0 rest IH]; intros Hd E l Hin Hlt; [destruct Hin|].
  cbn [match_limits] in E. apply desc_head in Hd as [Hd1 Hd2].
  destruct (index_of _ (b_hash b)) as [k|] eqn:Ek.
  - injection E as _ <-. destruct Hin as [<-|Hin]; [lia|].
    rewrite Forall_forall in Hd1. specialize (Hd1 l Hin). lia.
  - destruct Hin as [<-|Hin]; [|apply IH; assumption].
    apply index_of_none. exact Ek.
Qed.

Lemma match_limits_prefix f b s s' limits :
  firstn 8 s = firstn 8 s' -> Forall (fun l => l <= 8) limits ->
  match_limits f b s limits = match_limits f b s' limits.
Proof.
  intros He H. induction H as [|l rest Hl Hrest IH]; [reflexivity|].
  cbn [match_limits]. rewrite !grapheme_cluster_spec. cbn [fst].
  assert (A : forall u : str, firstn (N.to_nat l) u = firstn (N.to_nat l) (firstn 8 u))
    by (intros u; rewrite firstn_firstn; f_equal; lia).
  rewrite (A s), (A s'), He. rewrite IH.
  replace (Nat.min (N.to_nat l) (length s)) with (Nat.min (N.to_nat l) (length s')); [reflexivity|].
  apply (f_equal (@length N)) in He. rewrite !firstn_length in He. lia.
Qed.

Lemma lookup_longest gs s off n a t :
  get_blit_pattern_offset (blitstr_fonts gs) s = Ret (Some (off, n)) ->
  s = a ++ t -> str_len a = n ->
  exists b ch, In b (f_blocks (blitstr_fonts gs)) /\ nth_error s 0 = Some ch /\ b_low b <= ch <= b_high b /\
    In off (b_offset b) /\
    forall l, In l (b_limits b) -> (length a < Nat.min (N.to_nat l) (length s))%nat ->
      ~ In (fst (grapheme_cluster s (f_seed (blitstr_fonts gs)) l)) (b_hash b).
Proof.
  intros E Es Hn. set (f := blitstr_fonts gs) in *.
  assert (Hf : font_ok f) by (apply (fs_fonts _ fonts_ok)).
  rewrite lookup_spec in E by assumption.
  destruct (glyph_for f s) as [[o k]|] eqn:Eg; cbn [lookup_result] in E; [|discriminate].
  injection E as <- E. rewrite <- Hn in E. clear Hn.
  destruct (glyph_for_ok f s o k Hf Eg) as [_ Hk].
  assert (Hlen : length a = k).
  { destruct (Nat.lt_trichotomy (length a) k) as [H|[H|H]]; [|assumption|]; exfalso.
    - subst s. rewrite firstn_app, firstn_all2, str_len_app in E by lia.
      assert (k - length a <= length t)%nat by (rewrite app_length in Hk; lia).
      pose proof (str_len_ge (firstn (k - length a) t)). rewrite firstn_length in *. lia.
    - subst s. rewrite firstn_app in E. replace (k - length a)%nat with O in E by lia.
      rewrite firstn_O, app_nil_r in E. pose proof (str_len_firstn_skipn k a).
      pose proof (str_len_ge (skipn k a)). rewrite skipn_length in *. lia. }
  unfold glyph_for in Eg. destruct s as [|ch u]; [discriminate|].
  destruct (find _ (f_blocks f)) as [b|] eqn:Eb; [|discriminate].
  apply find_some in Eb as [Hin Hb].
  exists b, ch. split; [assumption|]. split; [reflexivity|]. split; [lia|].
  pose proof (limits_fonts gs) as Hlim. unfold limitsb in Hlim. rewrite forallb_forall in Hlim.
  specialize (Hlim b Hin). apply andb_prop in Hlim as [Hd Hl].
  split.
  - pose proof (fo_blocks f Hf) as HB. rewrite Forall_forall in HB. destruct (HB b Hin) as [B1 B2 B3].
    apply (match_limits_ok f b (ch :: u) (b_limits b) o k); try assumption; discriminate.
  - rewrite Hlen. intros l Hl'. apply (match_limits_longest f b (ch :: u) (b_limits b) o k); assumption.
Qed.

Lemma lookup_prefix gs s s' :
  firstn 8 s = firstn 8 s' ->
  get_blit_pattern_offset (blitstr_fonts gs) s = get_blit_pattern_offset (blitstr_fonts gs) s'.
Proof.
  intros He. set (f := blitstr_fonts gs).
  assert (Hf : font_ok f) by (apply (fs_fonts _ fonts_ok)).
  rewrite !lookup_spec by assumption. f_equal.
  assert (Eg : glyph_for f s = glyph_for f s').
  { unfold glyph_for. destruct s as [|ch u], s' as [|ch' u']; try discriminate; [reflexivity|].
    assert (ch = ch') as <- by (simpl in He; congruence).
    destruct (find _ (f_blocks f)) as [b|] eqn:Eb; [|reflexivity].
    apply find_some in Eb as [Hin Hb].
    apply match_limits_prefix; [assumption|].
    pose proof (limits_fonts gs) as Hlim. unfold limitsb in Hlim. rewrite forallb_forall in Hlim.
    specialize (Hlim b Hin). apply andb_prop in Hlim as [_ Hl]. rewrite forallb_forall in Hl.
    apply Forall_forall. intros l Hl'. specialize (Hl l Hl'). lia. }
  rewrite Eg. destruct (glyph_for f s') as [[o k]|] eqn:E; [|reflexivity].
  cbn [lookup_result]. do 3 f_equal.
  assert (Hk : (k <= 8)%nat).
  { unfold glyph_for in E. destruct s' as [|ch u]; [discriminate|].
    destruct (find _ (f_blocks f)) as [b|] eqn:Eb; [|discriminate].
    apply find_some in Eb as [Hin Hb].
    pose proof (limits_fonts gs) as Hlim. unfold limitsb in Hlim. rewrite forallb_forall in Hlim.
    specialize (Hlim b Hin). apply andb_prop in Hlim as [_ Hl]. rewrite forallb_forall in Hl.
    revert E Hl. generalize (b_limits b). intros ls. induction ls as [|l ls IH]; [discriminate|].
    cbn [match_limits]. intros E Hl. destruct (index_of _ _).
    - injection E as _ <-. specialize (Hl l (or_introl eq_refl)). lia.
    - apply IH; [exact E|]. intros x Hx; apply Hl; right; exact Hx. }
  assert (A : forall u : str, firstn k u = firstn k (firstn 8 u))
    by (intros u; rewrite firstn_firstn; f_equal; lia).
  rewrite (A s), (A s'), He. reflexivity.
Qed.

(** ** C03 *)
Lemma hint_fonts st : glyph_to_height_hint blitstr_fonts st = f_max_height (blitstr_fonts (latin_set st)).
Proof. destruct st; reflexivity. Qed.

Lemma hint_covers st b off :
  In b (f_blocks (blitstr_fonts (latin_set st))) -> In off (b_offset b) ->
  gl_h (blitstr_fonts (latin_set st)) off + gl_y (blitstr_fonts (latin_set st)) off
  <= glyph_to_height_hint blitstr_fonts st.
Proof.
  intros Hb Ho. rewrite hint_fonts.
  pose proof (fo_blocks _ (fs_fonts _ fonts_ok (latin_set st))) as HB.
  rewrite Forall_forall in HB. destruct (HB b Hb) as [_ _ H]. rewrite Forall_forall in H.
  apply (go_height _ _ (H off Ho)).
Qed.

Lemma hint_is_line_height m fb clip c st s off :
  cfg_ok m -> is_frbuf fb -> paintable clip -> px (cmin clip) < 320 ->
  cursor_fits m blitstr_fonts c s -> s <> [] -> nth_error s 0 <> Some 10 ->
  choose blitstr_fonts st s = (latin_set st, off, [], true) -> line_height c = 0 ->
  cy (seek blitstr_fonts clip c (gl_w (blitstr_fonts (latin_set st)) off))
    + gl_y (blitstr_fonts (latin_set st)) off <= py (cmax clip) ->
  exists fb' c', paint_str m blitstr_fonts fb clip c st s = Ret (fb', c') /\
    line_height c' = glyph_to_height_hint blitstr_fonts st.
Proof.
  intros Hm Hfb Hclip Hx Hc Hs Hnl Ech Hlh Hb.
  destruct (paint_one_any m blitstr_fonts fb clip c st s (latin_set st) off Hm fonts_ok Hfb Hclip Hx Hc Hs Hnl Ech Hb)
    as (fb2 & E2 & _).
  exists fb2; eexists; split; [exact E2|]. rewrite hint_fonts. unfold after; csimpl.
  match goal with |- N.max (line_height ?c1) _ = _ => replace (line_height c1) with 0 end; [lia|].
  unfold seek. destruct (_ <=? _); unfold break_line; csimpl; [reflexivity|symmetry; exact Hlh].
Qed.
